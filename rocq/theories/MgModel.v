(** The messages pallet: pallets/messages/src/lib.rs, types.rs, its RPC
    (rpc/src/lib.rs with common/primitives/src/messages.rs) and its migration
    (migration/v2.rs). *)
From Verif Require Import Prelude Scale ScaleDec CommonTypes Utf8 SigModel MsaModel.

(** [Error<T>], lib.rs:122-149, those that occur, and a bad origin. *)
Inductive MgErr :=
| GBadOrigin | GExceedsMaxMessagePayloadSizeBytes | GInvalidMessageSourceAccount | GInvalidSchemaId
| GUnAuthorizedDelegate | GInvalidPayloadLocation | GUnsupportedCidVersion | GInvalidCid.

(** MessagesMaxPayloadSizeBytes (lib.rs:86), and the crates multibase and cid:
    [g_decode] is [multibase::decode] (the bytes only), [g_cid_ok] whether
    [Cid::read_bytes] succeeds, [g_encode] is [multibase::encode] with
    Base32Lower. *)
Record MgCfg := {
  g_max : N;
  g_decode : list N -> option (list N);
  g_cid_ok : list N -> bool;
  g_encode : list N -> list N
}.

(** What a call sees of the MSA and schemas pallets. *)
Record MgEnv := { gv_env : MsaEnv; gv_msa : MsaState; gv_schema : N -> option SchemaInfo }.

(** types.rs:16-33 *)
Record Message := { ms_payload : list N; ms_provider : N; ms_source : option N }.

(** common/primitives/src/messages.rs:16-48 *)
Record MessageResponse := {
  mr_provider : N; mr_index : N; mr_block : N; mr_source : option N;
  mr_payload : option (list N); mr_cid : option (list N); mr_length : option N
}.

(** Storage, lib.rs:104-119: [BlockMessageIndex] (u16), [MessagesV2] keyed by
    block, schema and index. [mg_block] is the current block number of
    frame_system. [mg_events]: how many times MessagesInBlock was deposited in
    the current block. *)
Record MgState := { mg_block : N; mg_index : N; mg_messages : gmap (N * N * N) Message; mg_events : N }.
Definition mg_genesis : MgState := {| mg_block := 0; mg_index := 0; mg_messages := ∅; mg_events := 0 |}.

(** lib.rs:168-173 [on_initialize]; a new block also clears the events *)
Definition mg_next_block (st : MgState) : MgState :=
  {| mg_block := mg_block st + 1; mg_index := 0; mg_messages := mg_messages st; mg_events := 0 |}.

Section mg.
Variable cfg : MgCfg.

(** lib.rs:376-390 *)
Definition validate_cid (cid : list N) : res MgErr (list N) :=
  match from_utf8 cid with
  | None => Err GInvalidCid
  | Some s =>
      ensure! 2 <? len cid else GInvalidCid in
      ensure! negb (bool_decide (take 2 s = [81; 109])) else GUnsupportedCidVersion in
      match g_decode cfg cid with
      | None => Err GInvalidCid
      | Some b => ensure! g_cid_ok cfg b else GInvalidCid in Ok b
      end
  end.

(** lib.rs:338-341 *)
Definition find_msa_id (env : MgEnv) (key : N) : res MgErr N :=
  match ensure_valid_msa_key (gv_msa env) key with Ok m => Ok m | Err _ => Err GInvalidMessageSourceAccount end.

(** lib.rs:312-331 *)
Definition add_message (st : MgState) (provider : N) (source : option N) (payload : list N) (schema : N) : MgState * bool :=
  let index := mg_index st in
  let first := index =? 0 in
  ({| mg_block := mg_block st; mg_index := sat_add u16_max index 1;
      mg_messages := <[(mg_block st, schema, index) := {| ms_payload := payload; ms_provider := provider; ms_source := source |}]> (mg_messages st);
      mg_events := mg_events st |}, first).
Definition deposit_if (b : bool) (st : MgState) : MgState :=
  if b then {| mg_block := mg_block st; mg_index := mg_index st; mg_messages := mg_messages st; mg_events := mg_events st + 1 |} else st.

(** The MSA pallet answers for the current block. *)
Definition msa_env (st : MgState) (env : MgEnv) : MsaEnv :=
  {| e_block := mg_block st; e_max_schema := e_max_schema (gv_env env); e_has_handle := e_has_handle (gv_env env) |}.

(** types.rs:10-11: the stored form of an IPFS payload *)
Definition enc_offchain (cid : list N) (length : N) : list N := enc_bytes cid ++ enc_u32 length.

(** lib.rs:196-240 *)
Definition add_ipfs_message (env : MgEnv) (st : MgState) (who schema : N) (cid : list N) (length : N) : res MgErr MgState :=
  let! binary := validate_cid cid in
  let payload := enc_offchain binary length in
  ensure! len payload <=? g_max cfg else GExceedsMaxMessagePayloadSizeBytes in
  match gv_schema env schema with
  | None => Err GInvalidSchemaId
  | Some s =>
      ensure! bool_decide (si_location s = IPFS) else GInvalidPayloadLocation in
      let! provider := find_msa_id env who in
      let (st', first) := add_message st provider None payload schema in
      Ok (deposit_if first st')
  end.

(** lib.rs:251-301 *)
Definition add_onchain_message (env : MgEnv) (st : MgState) (who : N) (on_behalf_of : option N) (schema : N) (payload : list N) : res MgErr MgState :=
  ensure! len payload <=? g_max cfg else GExceedsMaxMessagePayloadSizeBytes in
  match gv_schema env schema with
  | None => Err GInvalidSchemaId
  | Some s =>
      ensure! bool_decide (si_location s = OnChain) else GInvalidPayloadLocation in
      let! provider := find_msa_id env who in
      let! source := match on_behalf_of with
                     | Some d =>
                         match ensure_valid_schema_grant (msa_env st env) (gv_msa env) provider d schema (mg_block st) with
                         | Ok _ => Ok d
                         | Err _ => Err GUnAuthorizedDelegate
                         end
                     | None => Ok provider
                     end in
      let (st', first) := add_message st provider (Some source) payload schema in
      Ok (deposit_if first st')
  end.

Inductive MgCall :=
| AddIpfsMessage (schema : N) (cid : list N) (length : N)
| AddOnchainMessage (on_behalf_of : option N) (schema : N) (payload : list N).

Definition mg_dispatch (env : MgEnv) (st : MgState) (o : Origin) (c : MgCall) : res MgErr MgState :=
  match o with
  | Gov => Err GBadOrigin
  | Signed who =>
      match c with
      | AddIpfsMessage schema cid length => add_ipfs_message env st who schema cid length
      | AddOnchainMessage b schema payload => add_onchain_message env st who b schema payload
      end
  end.

(** Histories: calls, and the beginnings of blocks. A failed call changes
    nothing. *)
Inductive MgX := NextBlock | Call (env : MgEnv) (o : Origin) (c : MgCall).
Definition mg_step (st : MgState) (x : MgX) : MgState :=
  match x with
  | NextBlock => mg_next_block st
  | Call env o c => match mg_dispatch env st o c with Ok st' => st' | Err _ => st end
  end.
Definition mg_run (st : MgState) (h : list MgX) : MgState := fold_left mg_step h st.

(** ** Queries *)

(** [OffchainPayloadType::decode]: bytes, then a u32; bytes that are left are
    ignored, and a failure is the default *)
Definition dec_offchain (bs : list N) : option (list N * N) :=
  match dec_bounded_bytes u32_max bs with
  | Some (cid, b0 :: b1 :: b2 :: b3 :: _) => Some (cid, le_val [b0; b1; b2; b3])
  | _ => None
  end.

(** types.rs:40-77 *)
Definition map_to_response (m : Message) (block : N) (loc : PayloadLocation) (index : N) : MessageResponse :=
  match loc with
  | OnChain =>
      {| mr_provider := ms_provider m; mr_index := index; mr_block := block; mr_source := ms_source m;
         mr_payload := Some (ms_payload m); mr_cid := None; mr_length := None |}
  | IPFS =>
      let (cid, length) := default ([], 0) (dec_offchain (ms_payload m)) in
      {| mr_provider := ms_provider m; mr_index := index; mr_block := block; mr_source := None;
         mr_payload := None; mr_cid := Some (g_encode cfg cid); mr_length := Some length |}
  | _ =>
      {| mr_provider := ms_provider m; mr_index := index; mr_block := block; mr_source := None;
         mr_payload := None; mr_cid := None; mr_length := None |}
  end.

(** lib.rs:349-369: the entries under (block, schema), in some order, sorted by
    index. A block number is a u32, so the conversion does not fail. *)
Definition by_index (a b : MessageResponse) : Prop := mr_index a <= mr_index b.
Global Instance by_index_dec : RelDecision by_index.
Proof. intros a b. unfold by_index. apply _. Defined.
Definition get_messages (st : MgState) (schema : N) (loc : PayloadLocation) (block : N) : list MessageResponse :=
  match loc with
  | Itemized | Paginated => []
  | _ =>
      merge_sort by_index
        (omap (fun kv : N * N * N * Message =>
           let '((b, s, i), m) := kv in
           if (b =? block) && (s =? schema) then Some (map_to_response m block loc i) else None)
        (map_to_list (mg_messages st)))
  end.
End mg.

(** ** The RPC: rpc/src/lib.rs:78-130 and common/primitives/src/messages.rs:49-133.
    [view b] is what the runtime answers for block [b]. *)
Record PageRequest := { rq_from : N; rq_index : N; rq_to : N; rq_size : N }.
Record PageResponse := { rs_content : list MessageResponse; rs_has_next : bool; rs_next_block : option N; rs_next_index : option N }.

Definition MAX_PAGE_SIZE : N := 10000.
Definition MAX_BLOCK_RANGE : N := 50000.
(** messages.rs:70-75 *)
Definition validate (r : PageRequest) : bool :=
  (0 <? rq_size r) && (rq_size r <=? MAX_PAGE_SIZE) && (rq_from r <? rq_to r) && (rq_to r - rq_from r <=? MAX_BLOCK_RANGE).

(** messages.rs:107-133: [None] if the page is not full *)
Definition check_end (content : list MessageResponse) (block index list_size : N) (r : PageRequest) : option PageResponse :=
  if len content =? rq_size r then
    let next_index := index + 1 in
    let '(nb, ni) := if next_index =? list_size then (block + 1, 0) else (block, next_index) in
    Some (if nb <? rq_to r
          then {| rs_content := content; rs_has_next := true; rs_next_block := Some nb; rs_next_index := Some ni |}
          else {| rs_content := content; rs_has_next := false; rs_next_block := None; rs_next_index := None |})
  else None.

(** rpc/src/lib.rs:115-127: the inner loop from index [i], over the rest [l] of
    the list; [inr] breaks out of both loops *)
Fixpoint page_list (r : PageRequest) (block i list_size : N) (l content : list MessageResponse) : list MessageResponse + PageResponse :=
  match l with
  | [] => inl content
  | x :: l' =>
      let content' := content ++ [x] in
      match check_end content' block i list_size r with
      | Some resp => inr resp
      | None => page_list r block (i + 1) list_size l' content'
      end
  end.
(** rpc/src/lib.rs:104-132: the outer loop over the [n] blocks from [block] *)
Fixpoint page_blocks (view : N -> list MessageResponse) (r : PageRequest) (n : nat) (block from_index : N) (content : list MessageResponse) : PageResponse :=
  match n with
  | O => {| rs_content := content; rs_has_next := false; rs_next_block := None; rs_next_index := None |}
  | S n' =>
      let l := view block in
      match page_list r block from_index (len l) (drop (N.to_nat from_index) l) content with
      | inr resp => resp
      | inl content' => page_blocks view r n' (block + 1) 0 content'
      end
  end.
(** rpc/src/lib.rs:77-132; [known] is whether the schema exists *)
Definition get_messages_by_schema_id (known : bool) (view : N -> list MessageResponse) (r : PageRequest) : option PageResponse :=
  if validate r then
    if known then Some (page_blocks view r (N.to_nat (rq_to r - rq_from r)) (rq_from r) (rq_index r) []) else None
  else None.

(** ** Migration to version 2: migration/v2.rs:105-149. The old storage maps
    (block, schema) to a list of messages that carry their index. *)
Record OldMessage := { om_payload : list N; om_provider : N; om_source : option N; om_index : N }.
Record MgOld := { mo_old : gmap (N * N) (list OldMessage); mo_new : gmap (N * N * N) Message; mo_version : N }.
Definition move_one (b s : N) (new : gmap (N * N * N) Message) (m : OldMessage) : gmap (N * N * N) Message :=
  <[(b, s, om_index m) := {| ms_payload := om_payload m; ms_provider := om_provider m; ms_source := om_source m |}]> new.
Definition move_all (new : gmap (N * N * N) Message) (kv : N * N * list OldMessage) : gmap (N * N * N) Message :=
  let '((b, s), l) := kv in fold_left (move_one b s) l new.
Definition migrate_messages (st : MgOld) : MgOld :=
  if mo_version st <? 2
  then {| mo_old := ∅; mo_new := fold_left move_all (map_to_list (mo_old st)) (mo_new st); mo_version := 2 |}
  else st.

(** runtime/common/src/constants.rs:268 *)
Definition runtime_messages (decode : list N -> option (list N)) (cid_ok : list N -> bool) (encode : list N -> list N) : MgCfg :=
  {| g_max := 3072; g_decode := decode; g_cid_ok := cid_ok; g_encode := encode |}.

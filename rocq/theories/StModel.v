(** The stateful-storage pallet: pallets/stateful-storage/src/lib.rs, types.rs
    and stateful_child_tree.rs. Storage is modelled down to the bytes of the
    child tries: key hashing, key and page encoding, decoding on read. *)
From Verif Require Import Prelude Scale ScaleDec CommonTypes SigModel MsaModel.

(** [Error<T>] (lib.rs:128-166) plus the two errors raised before a call runs. *)
Inductive StErr :=
| SBadOrigin | SUndecodable
| SPageIdExceedsMaxAllowed | SInvalidSchemaId | SUnsupportedOperationForSchema
| SSchemaPayloadLocationMismatch | SInvalidMessageSourceAccount | SUnauthorizedDelegate
| SCorruptedState | SInvalidItemAction | SStalePageState | SInvalidSignature
| SProofHasExpired | SProofNotYetValid.

(** types.rs:78-88 [PageError] *)
Inductive PageErr := ErrorParsing | InvalidAction | PArithmeticOverflow | PageSizeOverflow.

(** [Config] (lib.rs:62-121): sizes are u32, the page id u16. The hash functions
    and signature verification are dependencies: [f_blake128], [f_twox64] and
    the key hasher [f_key] (Twox128 in the runtime, [f_key_len] = 16) return
    bytes; [f_page] is XxHash64 with seed 0, a u64. *)
Record StCfg := {
  f_max_item_page : N;
  f_max_page : N;
  f_max_blob : N;
  f_max_page_id : N;
  f_max_actions : N;
  f_window : N;
  f_blake128 : list N -> list N;
  f_twox64 : list N -> list N;
  f_key : list N -> list N;
  f_key_len : nat;
  f_page : list N -> N;
  f_verify : N -> N -> list N -> bool
}.

(** What a call sees of the rest of the chain: the block, the MSA pallet
    ([MsaInfoProvider], [SchemaGrantValidator]) and the schemas pallet
    ([SchemaProvider::get_schema_info_by_id]). *)
Record StEnv := {
  v_env : MsaEnv;
  v_msa : MsaState;
  v_schema : N -> option SchemaInfo
}.
Definition v_block (e : StEnv) : N := e_block (v_env e).

(** types.rs:52-66 [ItemAction] *)
Inductive ItemAction := Add (data : list N) | Delete (index : N).

(** types.rs:234-246 [Page]; [Default] is nonce 0 and no data *)
Record Page := { pg_nonce : N; pg_data : list N }.
Definition pg_default : Page := {| pg_nonce := 0; pg_data := [] |}.

(** types.rs:90-232: the signed payloads *)
Record ItemizedPayload := { ip_msa : N; ip_schema : N; ip_hash : N; ip_exp : N; ip_actions : list ItemAction }.
Record ItemizedPayloadV2 := { ip2_schema : N; ip2_hash : N; ip2_exp : N; ip2_actions : list ItemAction }.
Record UpsertPayload := { up_msa : N; up_schema : N; up_page : N; up_hash : N; up_exp : N; up_data : list N }.
Record UpsertPayloadV2 := { up2_schema : N; up2_page : N; up2_hash : N; up2_exp : N; up2_data : list N }.
Record DeletePayload := { dp_msa : N; dp_schema : N; dp_page : N; dp_hash : N; dp_exp : N }.
Record DeletePayloadV2 := { dp2_schema : N; dp2_page : N; dp2_hash : N; dp2_exp : N }.

(** derived [Encode]: enum variant index, then the fields in order; fields
    marked [#[codec(compact)]] in compact form *)
Definition enc_action (a : ItemAction) : list N :=
  match a with
  | Add d => enc_u8 0 ++ enc_bytes d
  | Delete i => enc_u8 1 ++ enc_u16 i
  end.
Definition enc_actions (l : list ItemAction) : list N := compact (len l) ++ concat (map enc_action l).
Definition enc_itemized (p : ItemizedPayload) : list N :=
  compact (ip_msa p) ++ compact (ip_schema p) ++ compact (ip_hash p) ++ enc_u32 (ip_exp p) ++ enc_actions (ip_actions p).
Definition enc_itemized_v2 (p : ItemizedPayloadV2) : list N :=
  compact (ip2_schema p) ++ compact (ip2_hash p) ++ enc_u32 (ip2_exp p) ++ enc_actions (ip2_actions p).
Definition enc_upsert (p : UpsertPayload) : list N :=
  compact (up_msa p) ++ compact (up_schema p) ++ compact (up_page p) ++ compact (up_hash p) ++ enc_u32 (up_exp p) ++ enc_bytes (up_data p).
Definition enc_upsert_v2 (p : UpsertPayloadV2) : list N :=
  compact (up2_schema p) ++ compact (up2_page p) ++ compact (up2_hash p) ++ enc_u32 (up2_exp p) ++ enc_bytes (up2_data p).
Definition enc_delete (p : DeletePayload) : list N :=
  compact (dp_msa p) ++ compact (dp_schema p) ++ compact (dp_page p) ++ compact (dp_hash p) ++ enc_u32 (dp_exp p).
Definition enc_delete_v2 (p : DeletePayloadV2) : list N :=
  compact (dp2_schema p) ++ compact (dp2_page p) ++ compact (dp2_hash p) ++ enc_u32 (dp2_exp p).

(** [Event<T>], lib.rs:168-221 *)
Inductive StEvent :=
| ItemizedPageUpdated (msa schema prev curr : N)
| ItemizedPageDeleted (msa schema prev : N)
| PaginatedPageUpdated (msa schema page prev curr : N)
| PaginatedPageDeleted (msa schema page prev : N).

(** The child tries (root, key to value) and the deposited events. *)
Record StState := {
  st_tries : gmap (list N) (gmap (list N) (list N));
  st_events : list StEvent
}.
Definition st_genesis : StState := {| st_tries := ∅; st_events := [] |}.

(** types.rs:21-27: the ASCII bytes of "stateful-storage", "itemized", "paginated" *)
Definition pallet_prefix : list N := [115; 116; 97; 116; 101; 102; 117; 108; 45; 115; 116; 111; 114; 97; 103; 101].
Definition itemized_prefix : list N := [105; 116; 101; 109; 105; 122; 101; 100].
Definition paginated_prefix : list N := [112; 97; 103; 105; 110; 97; 116; 101; 100].

Section st.
Variable cfg : StCfg.

(** ** Pages *)

(** types.rs:281-287 and derived [Decode] of [Page] *)
Definition enc_page (p : Page) : list N := enc_u16 (pg_nonce p) ++ enc_bytes (pg_data p).
Definition dec_page (mx : N) (bs : list N) : option Page :=
  match dec_u16 bs with
  | None => None
  | Some (n, r) =>
      match dec_bounded_bytes mx r with
      | None => None
      | Some (d, _) => Some {| pg_nonce := n; pg_data := d |}
      end
  end.

(** types.rs:257-281: 0 for an empty page, else the first four (big-endian)
    bytes of the 64-bit hash of nonce and data *)
Definition get_hash (p : Page) : N :=
  match pg_data p with
  | [] => 0
  | d => f_page cfg (enc_u16 (pg_nonce p) ++ d) / 4294967296
  end.

(** types.rs:363-395 [try_parse]: the items as (index, bytes), in order. With
    [include_header] the two length bytes are kept. [fuel] bounds the loop,
    which consumes at least two bytes per turn; the caller gives enough. *)
Fixpoint parse_loop (include_header : bool) (fuel : nat) (count : N) (data : list N) : res PageErr (list (N * list N)) :=
  match data, fuel with
  | [], _ => Ok []
  | _, O => Err ErrorParsing
  | b0 :: r0, S fuel' =>
      match r0 with
      | [] => Err ErrorParsing
      | b1 :: r =>
          let n := N.to_nat (le_val [b0; b1]) in
          ensure! (n <=? length r)%nat else ErrorParsing in
          match chk_add u16_max count 1 with
          | None => Err PArithmeticOverflow
          | Some count' =>
              let! rest := parse_loop include_header fuel' count' (drop n r) in
              Ok ((count, if include_header then b0 :: b1 :: take n r else take n r) :: rest)
          end
      end
  end.
Definition try_parse (include_header : bool) (data : list N) : res PageErr (list (N * list N)) :=
  parse_loop include_header (length data) 0 data.

(** types.rs:327-345: the loop over the actions: remaining items, bytes to add *)
Fixpoint action_loop (actions : list ItemAction) (items : list (N * list N)) (add : list N) : res PageErr (list (N * list N) * list N) :=
  match actions with
  | [] => Ok (items, add)
  | Delete i :: actions' =>
      ensure! existsb (fun it => it.1 =? i) items else InvalidAction in
      action_loop actions' (List.filter (fun it => negb (it.1 =? i)) items) add
  | Add d :: actions' =>
      ensure! len d <=? u16_max else InvalidAction in
      action_loop actions' items (add ++ enc_u16 (len d) ++ d)
  end.

(** types.rs:316-357 [apply_item_actions]; the new page has nonce 0 *)
Definition apply_item_actions (p : Page) (actions : list ItemAction) : res PageErr Page :=
  let! items := try_parse true (pg_data p) in
  let! (items', add) := action_loop actions items [] in
  let buffer := concat (map snd items') ++ add in
  ensure! len buffer <=? f_max_item_page cfg else PageSizeOverflow in
  Ok {| pg_nonce := 0; pg_data := buffer |}.

(** ** The child tries, stateful_child_tree.rs *)

(** stateful_child_tree.rs:377-400 *)
Definition child_root (msa : N) (storage : list N) : list N :=
  f_blake128 cfg (enc_u64 msa ++ [58; 58]) ++ f_twox64 cfg pallet_prefix ++ f_twox64 cfg storage.

(** stateful_child_tree.rs:94-142: the hashes of the parts, then the encoded tuple *)
Definition itemized_key (schema : N) : list N := f_key cfg (enc_u16 schema) ++ enc_u16 schema.
Definition paginated_key (schema page : N) : list N :=
  f_key cfg (enc_u16 schema) ++ f_key cfg (enc_u16 page) ++ enc_u16 schema ++ enc_u16 page.

(** [child::get_raw], [child::put_raw], [child::kill] of frame_support *)
Definition get_raw (st : StState) (root key : list N) : option (list N) := default ∅ (st_tries st !! root) !! key.
Definition put_raw (st : StState) (root key value : list N) : StState :=
  {| st_tries := <[root := <[key := value]> (default ∅ (st_tries st !! root))]> (st_tries st); st_events := st_events st |}.
Definition kill_raw (st : StState) (root key : list N) : StState :=
  {| st_tries := <[root := delete key (default ∅ (st_tries st !! root))]> (st_tries st); st_events := st_events st |}.
Definition deposit (st : StState) (ev : StEvent) : StState :=
  {| st_tries := st_tries st; st_events := st_events st ++ [ev] |}.

(** stateful_child_tree.rs:300-314 [try_read], lib.rs:941-969 *)
Definition try_read (mx : N) (st : StState) (root key : list N) : res StErr (option Page) :=
  match get_raw st root key with
  | None => Ok None
  | Some v => match dec_page mx v with Some p => Ok (Some p) | None => Err SCorruptedState end
  end.
Definition get_itemized_page_for (st : StState) (msa schema : N) : res StErr (option Page) :=
  try_read (f_max_item_page cfg) st (child_root msa itemized_prefix) (itemized_key schema).
Definition get_paginated_page_for (st : StState) (msa schema page : N) : res StErr (option Page) :=
  try_read (f_max_page cfg) st (child_root msa paginated_prefix) (paginated_key schema page).

(** ** Checks, lib.rs:664-797 *)

Definition check_payload_expiration (now exp : N) : res StErr unit :=
  ensure! now <? exp else SProofHasExpired in
  ensure! exp <? wrap_add u32_max now (f_window cfg) else SProofNotYetValid in
  Ok tt.

Definition check_signature (s signer : N) (payload : list N) : res StErr unit :=
  ensure! f_verify cfg s signer (wrap_binary_data payload) else SInvalidSignature in Ok tt.

Definition check_schema_for_read (env : StEnv) (schema : N) (loc : PayloadLocation) : res StErr SchemaInfo :=
  match v_schema env schema with
  | None => Err SInvalidSchemaId
  | Some i => ensure! bool_decide (si_location i = loc) else SSchemaPayloadLocationMismatch in Ok i
  end.

Definition check_schema_for_write (env : StEnv) (schema : N) (loc : PayloadLocation) (is_signed is_deleting : bool) : res StErr unit :=
  let! i := check_schema_for_read env schema loc in
  ensure! negb (set_signature_required (si_settings i)) || is_signed else SUnsupportedOperationForSchema in
  ensure! negb (set_append_only (si_settings i)) || negb is_deleting else SUnsupportedOperationForSchema in
  Ok tt.

Definition st_msa_of_key (env : StEnv) (key : N) : res StErr N :=
  match ensure_valid_msa_key (v_msa env) key with Ok m => Ok m | Err _ => Err SInvalidMessageSourceAccount end.

Definition check_msa_and_grants (env : StEnv) (key owner schema : N) : res StErr N :=
  let! caller := st_msa_of_key env key in
  if caller =? owner then Ok caller
  else match ensure_valid_schema_grant (v_env env) (v_msa env) caller owner schema (v_block env) with
       | Ok _ => Ok caller
       | Err _ => Err SUnauthorizedDelegate
       end.

Definition check_msa (env : StEnv) (key expected : N) : res StErr unit :=
  let! m := st_msa_of_key env key in
  ensure! m =? expected else SInvalidMessageSourceAccount in Ok tt.

(** ** Updates *)

(** lib.rs:805-866 *)
Definition update_itemized (st : StState) (msa schema target : N) (actions : list ItemAction) : res StErr StState :=
  let! page := get_itemized_page_for st msa schema in
  let existing := default pg_default page in
  let prev := get_hash existing in
  ensure! target =? prev else SStalePageState in
  let! page' := (match apply_item_actions existing actions with
                 | Ok p => Ok p
                 | Err ErrorParsing => Err SCorruptedState
                 | Err _ => Err SInvalidItemAction
                 end) in
  let updated := {| pg_nonce := wrap_add u16_max (pg_nonce existing) 1; pg_data := pg_data page' |} in
  match pg_data updated with
  | [] => Ok (deposit (kill_raw st (child_root msa itemized_prefix) (itemized_key schema)) (ItemizedPageDeleted msa schema prev))
  | _ => Ok (deposit (put_raw st (child_root msa itemized_prefix) (itemized_key schema) (enc_page updated))
               (ItemizedPageUpdated msa schema prev (get_hash updated)))
  end.

(** lib.rs:873-905 *)
Definition update_paginated (st : StState) (msa schema page target : N) (data : list N) : res StErr StState :=
  let! old := get_paginated_page_for st msa schema page in
  let existing := default pg_default old in
  let prev := get_hash existing in
  ensure! target =? prev else SStalePageState in
  let new := {| pg_nonce := wrap_add u16_max (pg_nonce existing) 1; pg_data := data |} in
  Ok (deposit (put_raw st (child_root msa paginated_prefix) (paginated_key schema page) (enc_page new))
        (PaginatedPageUpdated msa schema page prev (get_hash new))).

(** lib.rs:912-939 *)
Definition delete_paginated (st : StState) (msa schema page target : N) : res StErr StState :=
  let! old := get_paginated_page_for st msa schema page in
  match old with
  | None => Ok st
  | Some existing =>
      let prev := get_hash existing in
      ensure! target =? prev else SStalePageState in
      Ok (deposit (kill_raw st (child_root msa paginated_prefix) (paginated_key schema page))
            (PaginatedPageDeleted msa schema page prev))
  end.

(** ** The extrinsics *)
Inductive StCall :=
| ApplyItemActions (owner schema target : N) (actions : list ItemAction)
| UpsertPage (owner schema page target : N) (data : list N)
| DeletePage (owner schema page target : N)
| ApplyItemActionsWithSignature (delegator_key proof : N) (p : ItemizedPayload)
| UpsertPageWithSignature (delegator_key proof : N) (p : UpsertPayload)
| DeletePageWithSignature (delegator_key proof : N) (p : DeletePayload)
| ApplyItemActionsWithSignatureV2 (delegator_key proof : N) (p : ItemizedPayloadV2)
| UpsertPageWithSignatureV2 (delegator_key proof : N) (p : UpsertPayloadV2)
| DeletePageWithSignatureV2 (delegator_key proof : N) (p : DeletePayloadV2).

(** Arguments are values of their Rust types; an extrinsic with others cannot
    be decoded. Bounded vectors (lib.rs:249-252, 286, types.rs) carry a limit. *)
Definition bytes_ok (mx : N) (d : list N) : bool := (len d <=? mx) && forallb (fun b => b <=? u8_max) d.
Definition action_ok (a : ItemAction) : bool :=
  match a with Add d => bytes_ok (f_max_blob cfg) d | Delete i => i <=? u16_max end.
Definition actions_ok (l : list ItemAction) : bool := (len l <=? f_max_actions cfg) && forallb action_ok l.
Definition call_ok (c : StCall) : bool :=
  match c with
  | ApplyItemActions o s h l => (o <=? u64_max) && (s <=? u16_max) && (h <=? u32_max) && actions_ok l
  | UpsertPage o s p h d => (o <=? u64_max) && (s <=? u16_max) && (p <=? u16_max) && (h <=? u32_max) && bytes_ok (f_max_page cfg) d
  | DeletePage o s p h => (o <=? u64_max) && (s <=? u16_max) && (p <=? u16_max) && (h <=? u32_max)
  | ApplyItemActionsWithSignature _ _ p =>
      (ip_msa p <=? u64_max) && (ip_schema p <=? u16_max) && (ip_hash p <=? u32_max) && (ip_exp p <=? u32_max) && actions_ok (ip_actions p)
  | UpsertPageWithSignature _ _ p =>
      (up_msa p <=? u64_max) && (up_schema p <=? u16_max) && (up_page p <=? u16_max) && (up_hash p <=? u32_max) && (up_exp p <=? u32_max) && bytes_ok (f_max_page cfg) (up_data p)
  | DeletePageWithSignature _ _ p =>
      (dp_msa p <=? u64_max) && (dp_schema p <=? u16_max) && (dp_page p <=? u16_max) && (dp_hash p <=? u32_max) && (dp_exp p <=? u32_max)
  | ApplyItemActionsWithSignatureV2 _ _ p =>
      (ip2_schema p <=? u16_max) && (ip2_hash p <=? u32_max) && (ip2_exp p <=? u32_max) && actions_ok (ip2_actions p)
  | UpsertPageWithSignatureV2 _ _ p =>
      (up2_schema p <=? u16_max) && (up2_page p <=? u16_max) && (up2_hash p <=? u32_max) && (up2_exp p <=? u32_max) && bytes_ok (f_max_page cfg) (up2_data p)
  | DeletePageWithSignatureV2 _ _ p =>
      (dp2_schema p <=? u16_max) && (dp2_page p <=? u16_max) && (dp2_hash p <=? u32_max) && (dp2_exp p <=? u32_max)
  end.

Definition is_delete (a : ItemAction) : bool := match a with Delete _ => true | Add _ => false end.

Definition st_dispatch (env : StEnv) (st : StState) (o : Origin) (c : StCall) : res StErr StState :=
  ensure! call_ok c else SUndecodable in
  let! who := (match o with Signed w => Ok w | Gov => Err SBadOrigin end) in
  match c with
  | ApplyItemActions owner schema target actions => (* lib.rs:244-266 *)
      let! caller := check_msa_and_grants env who owner schema in
      let! _ := check_schema_for_write env schema Itemized (caller =? owner) (existsb is_delete actions) in
      update_itemized st owner schema target actions
  | UpsertPage owner schema page target data => (* lib.rs:280-307 *)
      ensure! page <=? f_max_page_id cfg else SPageIdExceedsMaxAllowed in
      let! caller := check_msa_and_grants env who owner schema in
      let! _ := check_schema_for_write env schema Paginated (caller =? owner) false in
      update_paginated st owner schema page target data
  | DeletePage owner schema page target => (* lib.rs:321-341 *)
      ensure! page <=? f_max_page_id cfg else SPageIdExceedsMaxAllowed in
      let! caller := check_msa_and_grants env who owner schema in
      let! _ := check_schema_for_write env schema Paginated (caller =? owner) true in
      delete_paginated st owner schema page target
  | ApplyItemActionsWithSignature dkey proof p => (* lib.rs:358-386 *)
      let! _ := check_payload_expiration (v_block env) (ip_exp p) in
      let! _ := check_signature proof dkey (enc_itemized p) in
      let! _ := check_msa env dkey (ip_msa p) in
      let! _ := check_schema_for_write env (ip_schema p) Itemized true (existsb is_delete (ip_actions p)) in
      update_itemized st (ip_msa p) (ip_schema p) (ip_hash p) (ip_actions p)
  | UpsertPageWithSignature dkey proof p => (* lib.rs:398-429 *)
      ensure! up_page p <=? f_max_page_id cfg else SPageIdExceedsMaxAllowed in
      let! _ := check_payload_expiration (v_block env) (up_exp p) in
      let! _ := check_signature proof dkey (enc_upsert p) in
      let! _ := check_msa env dkey (up_msa p) in
      let! _ := check_schema_for_write env (up_schema p) Paginated true false in
      update_paginated st (up_msa p) (up_schema p) (up_page p) (up_hash p) (up_data p)
  | DeletePageWithSignature dkey proof p => (* lib.rs:441-471 *)
      ensure! dp_page p <=? f_max_page_id cfg else SPageIdExceedsMaxAllowed in
      let! _ := check_payload_expiration (v_block env) (dp_exp p) in
      let! _ := check_signature proof dkey (enc_delete p) in
      let! _ := check_msa env dkey (dp_msa p) in
      let! _ := check_schema_for_write env (dp_schema p) Paginated true true in
      delete_paginated st (dp_msa p) (dp_schema p) (dp_page p) (dp_hash p)
  | ApplyItemActionsWithSignatureV2 dkey proof p => (* lib.rs:486-515 *)
      let! _ := check_payload_expiration (v_block env) (ip2_exp p) in
      let! _ := check_signature proof dkey (enc_itemized_v2 p) in
      let! owner := st_msa_of_key env dkey in
      let! _ := check_schema_for_write env (ip2_schema p) Itemized true (existsb is_delete (ip2_actions p)) in
      update_itemized st owner (ip2_schema p) (ip2_hash p) (ip2_actions p)
  | UpsertPageWithSignatureV2 dkey proof p => (* lib.rs:525-557 *)
      ensure! up2_page p <=? f_max_page_id cfg else SPageIdExceedsMaxAllowed in
      let! _ := check_payload_expiration (v_block env) (up2_exp p) in
      let! _ := check_signature proof dkey (enc_upsert_v2 p) in
      let! owner := st_msa_of_key env dkey in
      let! _ := check_schema_for_write env (up2_schema p) Paginated true false in
      update_paginated st owner (up2_schema p) (up2_page p) (up2_hash p) (up2_data p)
  | DeletePageWithSignatureV2 dkey proof p => (* lib.rs:567-598 *)
      ensure! dp2_page p <=? f_max_page_id cfg else SPageIdExceedsMaxAllowed in
      let! _ := check_payload_expiration (v_block env) (dp2_exp p) in
      let! _ := check_signature proof dkey (enc_delete_v2 p) in
      let! owner := st_msa_of_key env dkey in
      let! _ := check_schema_for_write env (dp2_schema p) Paginated true true in
      delete_paginated st owner (dp2_schema p) (dp2_page p) (dp2_hash p)
  end.

(** Histories: each step brings its own view of the rest of the chain; a failed
    call changes nothing (transactional dispatch). *)
Record StStep := { x_env : StEnv; x_origin : Origin; x_call : StCall }.
Definition st_step (st : StState) (x : StStep) : StState :=
  match st_dispatch (x_env x) st (x_origin x) (x_call x) with Ok st' => st' | Err _ => st end.
Definition st_run (st : StState) (h : list StStep) : StState := fold_left st_step h st.

(** ** Reads *)

(** lib.rs:649-662: content hash, nonce and the items *)
Definition get_itemized_storage (env : StEnv) (st : StState) (msa schema : N) : res StErr (N * N * list (N * list N)) :=
  let! _ := check_schema_for_read env schema Itemized in
  let! page := get_itemized_page_for st msa schema in
  let page := default pg_default page in
  match try_parse false (pg_data page) with
  | Ok items => Ok (get_hash page, pg_nonce page, items)
  | Err _ => Err SCorruptedState
  end.

(** stateful_child_tree.rs:320-348 and lib.rs:622-646: every key of the trie
    that starts with the hash of the schema id; the rest of the key loses one
    hash (16 bytes; the empty string if it is too short) and is decoded as
    (schema id, page id), of which only the page id is used. Entries that do
    not decode are skipped. The order (that of the raw keys) is not modelled. *)
Definition strip_hash (k : list N) : list N := if (length k <? f_key_len cfg)%nat then [] else drop (f_key_len cfg) k.
Definition dec_paginated_key (k : list N) : option N :=
  match dec_u16 (strip_hash k) with
  | Some (_, r) => match dec_u16 r with Some (p, _) => Some p | None => None end
  | None => None
  end.
Definition strip_prefix (prefix k : list N) : option (list N) :=
  if bool_decide (take (length prefix) k = prefix) then Some (drop (length prefix) k) else None.
Definition list_entry (prefix : list N) (kv : list N * list N) : option (N * N * N * list N) :=
  match strip_prefix prefix kv.1 with
  | None => None
  | Some k =>
      match dec_page (f_max_page cfg) kv.2 with
      | None => None
      | Some p => match dec_paginated_key k with
                  | None => None
                  | Some page => Some (page, get_hash p, pg_nonce p, pg_data p)
                  end
      end
  end.
Definition get_paginated_storage (env : StEnv) (st : StState) (msa schema : N) : res StErr (list (N * N * N * list N)) :=
  let! _ := check_schema_for_read env schema Paginated in
  Ok (omap (list_entry (f_key cfg (enc_u16 schema))) (map_to_list (default ∅ (st_tries st !! child_root msa paginated_prefix)))).

End st.

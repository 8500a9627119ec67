(** The schemas pallet: pallets/schemas/src/lib.rs and types.rs, and its
    migration, pallets/schemas/src/migration/v4.rs. *)
From Verif Require Import Prelude CommonTypes Utf8.

(** [Error<T>], lib.rs:130-179, plus the generic errors that occur: a bad
    origin, arguments that exceed their bounded type (the extrinsic does not
    decode) and a refusal of the council pallet. *)
Inductive ScErr :=
| ScBadOrigin | ScUndecodable | ScProposalRefused
| ScInvalidSchema | ScExceedsMaxSchemaModelBytes | ScLessThanMinSchemaModelBytes | ScSchemaCountOverflow | ScInvalidSetting
| ScInvalidSchemaNameEncoding | ScInvalidSchemaNameCharacters | ScInvalidSchemaNameStructure
| ScInvalidSchemaNamespaceLength | ScInvalidSchemaDescriptorLength
| ScExceedsMaxNumberOfVersions | ScSchemaIdAlreadyExists | ScSchemaIdDoesNotExist | ScSchemaIdAlreadyHasName.

(** common/primitives/src/schema.rs:45-57 *)
Inductive SchemaSetting := AppendOnly | SignatureRequired.
Global Instance schema_setting_eq_dec : EqDecision SchemaSetting.
Proof. solve_decision. Defined.

(** types.rs:56-63; byte strings *)
Record SchemaName := { nm_namespace : list N; nm_descriptor : list N }.
Global Instance schema_name_eq_dec : EqDecision SchemaName.
Proof. solve_decision. Defined.

(** [Config], lib.rs:66-102: MinSchemaModelSizeBytes,
    SchemaModelMaxBytesBoundedVecLimit, MaxSchemaSettingsPerSchema, and whether a
    model is well formed ([ensure_valid_model], lib.rs:744-757, which asks the
    JSON parser, a dependency). MaxSchemaRegistrations is not used by the code. *)
Record ScCfg := {
  sf_min_bytes : N;
  sf_hard_max : N;
  sf_max_settings : N;
  sf_valid_model : ModelType -> list N -> bool
}.

(** types.rs:41-52 *)
Record ScInfo := { in_info : SchemaInfo; in_has_name : bool }.

(** lib.rs:104-127 *)
Inductive ScEvent :=
| SchemaCreated (key id : N)
| SchemaMaxSizeChanged (max_size : N)
| SchemaNameCreated (id : N) (name : list N).

(** The pallet's calls, lib.rs:281-656 *)
Inductive ScCall :=
| CreateSchema (model : list N) (mt : ModelType) (loc : PayloadLocation)
| SetMaxSchemaModelBytes (max_size : N)
| ProposeToCreateSchema (model : list N) (mt : ModelType) (loc : PayloadLocation) (settings : list SchemaSetting)
| CreateSchemaViaGovernance (creator : N) (model : list N) (mt : ModelType) (loc : PayloadLocation) (settings : list SchemaSetting)
| CreateSchemaV2 (model : list N) (mt : ModelType) (loc : PayloadLocation) (settings : list SchemaSetting)
| ProposeToCreateSchemaV2 (model : list N) (mt : ModelType) (loc : PayloadLocation) (settings : list SchemaSetting) (name : option (list N))
| CreateSchemaViaGovernanceV2 (creator : N) (model : list N) (mt : ModelType) (loc : PayloadLocation) (settings : list SchemaSetting)
    (name : option (list N))
| CreateSchemaV3 (model : list N) (mt : ModelType) (loc : PayloadLocation) (settings : list SchemaSetting) (name : option (list N))
| ProposeToCreateSchemaName (id : N) (name : list N)
| CreateSchemaNameViaGovernance (id : N) (name : list N).

(** Storage, lib.rs:185-239, the events, and the proposals handed to the council
    pallet with their proposers. [sc_names] is keyed by namespace and descriptor
    and holds the [ids] of types.rs:65-72; an absent entry is the empty list
    (ValueQuery). *)
Record ScState := {
  sc_max_bytes : N;
  sc_count : N;
  sc_infos : gmap N ScInfo;
  sc_models : gmap N (list N);
  sc_names : gmap (list N * list N) (list N);
  sc_version : N;
  sc_events : list ScEvent;
  sc_proposals : list (N * ScCall)
}.

(** lib.rs:241-256 and the storage version 4 of types.rs:17 *)
Definition sc_genesis (initial_max : N) : ScState :=
  {| sc_max_bytes := initial_max; sc_count := 0; sc_infos := ∅; sc_models := ∅; sc_names := ∅; sc_version := 4;
     sc_events := []; sc_proposals := [] |}.

(** Origins. [Council] is one accepted by CreateSchemaViaGovernanceOrigin that is
    not root; root is accepted too (runtime/frequency/src/lib.rs:534-537). *)
Inductive ScOrigin := ScRoot | ScCouncil | ScSigned (who : N) | ScNone.

(** ** Names: types.rs:19-39, 74-146 *)
Definition SCHEMA_NAME_BYTES_MAX : N := 32.
Definition NAMESPACE_MIN : N := 3.
Definition DESCRIPTOR_MIN : N := 1.
Definition NAMESPACE_MAX : N := SCHEMA_NAME_BYTES_MAX - (DESCRIPTOR_MIN + 1).
Definition DESCRIPTOR_MAX : N := SCHEMA_NAME_BYTES_MAX - (NAMESPACE_MIN + 1).
Definition SEPARATOR_CHAR : N := 46.
(** [SchemaVersion] is a u8 *)
Definition MAX_NUMBER_OF_VERSIONS : N := u8_max - 1.

(** [to_lowercase] and [trim] on an ASCII string *)
Definition to_lower (c : N) : N := if (65 <=? c) && (c <=? 90) then c + 32 else c.
Definition ascii_space (c : N) : bool := ((9 <=? c) && (c <=? 13)) || (c =? 32).
Fixpoint trim_start (s : list N) : list N :=
  match s with
  | c :: s' => if ascii_space c then trim_start s' else s
  | [] => []
  end.
Definition trim (s : list N) : list N := rev (trim_start (rev (trim_start s))).
Definition is_ascii_alphabetic (c : N) : bool := ((65 <=? c) && (c <=? 90)) || ((97 <=? c) && (c <=? 122)).
Definition starts_with_dash (s : list N) : bool := match s with c :: _ => c =? 45 | [] => false end.
Definition ends_with_dash (s : list N) : bool := match last s with Some c => c =? 45 | None => false end.

(** types.rs:96-104 *)
Definition check_namespace (ns : list N) : res ScErr unit :=
  ensure! len ns <=? NAMESPACE_MAX else ScInvalidSchemaNamespaceLength in
  ensure! NAMESPACE_MIN <=? len ns else ScInvalidSchemaNamespaceLength in
  ensure! negb (starts_with_dash ns || ends_with_dash ns) else ScInvalidSchemaNameStructure in
  Ok tt.
(** types.rs:109-121 *)
Definition check_descriptor (d : list N) : res ScErr unit :=
  ensure! len d <=? DESCRIPTOR_MAX else ScInvalidSchemaDescriptorLength in
  ensure! DESCRIPTOR_MIN <=? len d else ScInvalidSchemaDescriptorLength in
  ensure! negb (starts_with_dash d || ends_with_dash d) else ScInvalidSchemaNameStructure in
  Ok tt.

(** types.rs:75-128 *)
Definition try_parse (payload : list N) (is_strict : bool) : res ScErr SchemaName :=
  match from_utf8 payload with
  | None => Err ScInvalidSchemaNameEncoding
  | Some s0 =>
      ensure! forallb (fun c => c <? 128) s0 else ScInvalidSchemaNameEncoding in
      let s := trim (map to_lower s0) in
      ensure! forallb (fun c => is_ascii_alphabetic c || (c =? 45) || (c =? SEPARATOR_CHAR)) s else ScInvalidSchemaNameCharacters in
      match split_on SEPARATOR_CHAR s with
      | [ns] =>
          ensure! negb is_strict else ScInvalidSchemaNameStructure in
          let! _ := check_namespace ns in
          Ok {| nm_namespace := ns; nm_descriptor := [] |}
      | [ns; d] =>
          let! _ := check_namespace ns in
          let! _ := check_descriptor d in
          Ok {| nm_namespace := ns; nm_descriptor := d |}
      | _ => Err ScInvalidSchemaNameStructure
      end
  end.
(** types.rs:131-138 *)
Definition get_combined_name (n : SchemaName) : list N := nm_namespace n ++ [SEPARATOR_CHAR] ++ nm_descriptor n.

(** types.rs:153-161 *)
Definition version_add (ids : list N) (id : N) : res ScErr (list N) :=
  ensure! negb (bool_decide (id ∈ ids)) else ScSchemaIdAlreadyExists in
  ensure! len ids <? MAX_NUMBER_OF_VERSIONS else ScExceedsMaxNumberOfVersions in
  Ok (ids ++ [id]).
Definition ids_of (st : ScState) (n : SchemaName) : list N :=
  match sc_names st !! (nm_namespace n, nm_descriptor n) with Some ids => ids | None => [] end.

(** types.rs:164-174; the version is a u8 *)
Record VersionResponse := { vr_name : list N; vr_id : N; vr_version : N }.
Definition convert_to_response (n : SchemaName) (ids : list N) : list VersionResponse :=
  imap (fun i id => {| vr_name := get_combined_name n; vr_id := id; vr_version := (N.of_nat i + 1) mod 256 |}) ids.

Section sc.
Variable cfg : ScCfg.

(** [SchemaNameToIds::try_mutate] with [add], lib.rs:641-652 and 680-688 *)
Definition add_name (st : ScState) (n : SchemaName) (id : N) : res ScErr ScState :=
  let! ids := version_add (ids_of st n) id in
  Ok {| sc_max_bytes := sc_max_bytes st; sc_count := sc_count st; sc_infos := sc_infos st; sc_models := sc_models st;
        sc_names := <[(nm_namespace n, nm_descriptor n) := ids]> (sc_names st);
        sc_version := sc_version st; sc_events := sc_events st; sc_proposals := sc_proposals st |}.
Definition sc_emit (st : ScState) (es : list ScEvent) : ScState :=
  {| sc_max_bytes := sc_max_bytes st; sc_count := sc_count st; sc_infos := sc_infos st; sc_models := sc_models st;
     sc_names := sc_names st; sc_version := sc_version st; sc_events := sc_events st ++ es; sc_proposals := sc_proposals st |}.
Definition sc_propose (st : ScState) (who : N) (c : ScCall) : ScState :=
  {| sc_max_bytes := sc_max_bytes st; sc_count := sc_count st; sc_infos := sc_infos st; sc_models := sc_models st;
     sc_names := sc_names st; sc_version := sc_version st; sc_events := sc_events st; sc_proposals := sc_proposals st ++ [(who, c)] |}.

(** lib.rs:671-677: setting a flag of the bit set *)
Definition set_setting (s : SchemaSettings) (x : SchemaSetting) : SchemaSettings :=
  match x with
  | AppendOnly => {| set_append_only := true; set_signature_required := set_signature_required s |}
  | SignatureRequired => {| set_append_only := set_append_only s; set_signature_required := true |}
  end.
Definition set_settings (l : list SchemaSetting) : SchemaSettings :=
  fold_left set_setting l {| set_append_only := false; set_signature_required := false |}.

(** lib.rs:766-772 *)
Definition get_next_schema_id (st : ScState) : res ScErr N :=
  match chk_add u16_max (sc_count st) 1 with Some n => Ok n | None => Err ScSchemaCountOverflow end.

(** lib.rs:664-698 *)
Definition add_schema (st : ScState) (model : list N) (mt : ModelType) (loc : PayloadLocation) (settings : list SchemaSetting)
    (name : option SchemaName) : res ScErr (ScState * N) :=
  let! id := get_next_schema_id st in
  let! st1 := match name with Some n => add_name st n id | None => Ok st end in
  let info := {| in_info := {| si_model_type := mt; si_location := loc; si_settings := set_settings settings |};
                 in_has_name := match name with Some _ => true | None => false end |} in
  Ok ({| sc_max_bytes := sc_max_bytes st1; sc_count := id; sc_infos := <[id := info]> (sc_infos st1);
         sc_models := <[id := model]> (sc_models st1); sc_names := sc_names st1; sc_version := sc_version st1;
         sc_events := sc_events st1; sc_proposals := sc_proposals st1 |}, id).

(** lib.rs:786-823 *)
Definition create_schema_for (st : ScState) (model : list N) (mt : ModelType) (loc : PayloadLocation) (settings : list SchemaSetting)
    (name : option (list N)) : res ScErr (ScState * N * option SchemaName) :=
  ensure! sf_valid_model cfg mt model else ScInvalidSchema in
  ensure! sf_min_bytes cfg <=? len model else ScLessThanMinSchemaModelBytes in
  ensure! len model <=? sc_max_bytes st else ScExceedsMaxSchemaModelBytes in
  ensure! negb (bool_decide (AppendOnly ∈ settings)) || bool_decide (loc = Itemized) else ScInvalidSetting in
  let! n := match name with
            | None => Ok None
            | Some p => let! parsed := try_parse p true in Ok (Some parsed)
            end in
  let! (st', id) := add_schema st model mt loc settings n in
  Ok (st', id, n).

(** lib.rs:843-856 *)
Definition parse_and_verify (st : ScState) (id : N) (name : list N) : res ScErr SchemaName :=
  match sc_infos st !! id with
  | None => Err ScSchemaIdDoesNotExist
  | Some info =>
      ensure! negb (in_has_name info) else ScSchemaIdAlreadyHasName in
      try_parse name true
  end.

(** The bounds of the argument types *)
Definition create_args_ok (model : list N) (settings : list SchemaSetting) (name : option (list N)) : bool :=
  (len model <=? sf_hard_max cfg) && (len settings <=? sf_max_settings cfg)
  && match name with Some n => len n <=? SCHEMA_NAME_BYTES_MAX | None => true end.
Definition name_args_ok (id : N) (name : list N) : bool := (id <=? u16_max) && (len name <=? SCHEMA_NAME_BYTES_MAX).
Definition args_ok (c : ScCall) : bool :=
  match c with
  | CreateSchema model _ _ => create_args_ok model [] None
  | SetMaxSchemaModelBytes n => n <=? u32_max
  | ProposeToCreateSchema model _ _ s | CreateSchemaViaGovernance _ model _ _ s | CreateSchemaV2 model _ _ s => create_args_ok model s None
  | ProposeToCreateSchemaV2 model _ _ s n | CreateSchemaViaGovernanceV2 _ model _ _ s n | CreateSchemaV3 model _ _ s n => create_args_ok model s n
  | ProposeToCreateSchemaName id n | CreateSchemaNameViaGovernance id n => name_args_ok id n
  end.

(** [ensure_signed], and CreateSchemaViaGovernanceOrigin *)
Definition ensure_signed (o : ScOrigin) : res ScErr N := match o with ScSigned who => Ok who | _ => Err ScBadOrigin end.
Definition governance (o : ScOrigin) : bool := match o with ScRoot | ScCouncil => true | _ => false end.

(** the body shared by the creating calls: create, then the events of
    lib.rs:299-300, 399-400, 429-430, 507-513, 577-583 *)
Definition create (st : ScState) (key : N) (model : list N) (mt : ModelType) (loc : PayloadLocation) (settings : list SchemaSetting)
    (name : option (list N)) : res ScErr ScState :=
  let! (st', id, n) := create_schema_for st model mt loc settings name in
  Ok (sc_emit st' (SchemaCreated key id ::
        match n with Some inner => [SchemaNameCreated id (get_combined_name inner)] | None => [] end)).

(** lib.rs:281-656. [council_ok]: whether [propose_with_simple_majority]
    (runtime/frequency/src/lib.rs:103-126, the council pallet) succeeds. *)
Definition sc_dispatch (st : ScState) (o : ScOrigin) (council_ok : bool) (c : ScCall) : res ScErr ScState :=
  ensure! args_ok c else ScUndecodable in
  match c with
  | CreateSchema model mt loc => (* 282-302 *)
      let! who := ensure_signed o in create st who model mt loc [] None
  | SetMaxSchemaModelBytes n => (* 316-328 *)
      ensure! match o with ScRoot => true | _ => false end else ScBadOrigin in
      ensure! n <=? sf_hard_max cfg else ScExceedsMaxSchemaModelBytes in
      Ok (sc_emit {| sc_max_bytes := n; sc_count := sc_count st; sc_infos := sc_infos st; sc_models := sc_models st;
                     sc_names := sc_names st; sc_version := sc_version st; sc_events := sc_events st; sc_proposals := sc_proposals st |}
                  [SchemaMaxSizeChanged n])
  | ProposeToCreateSchema model mt loc s => (* 338-359 *)
      let! who := ensure_signed o in
      ensure! council_ok else ScProposalRefused in
      Ok (sc_propose st who (CreateSchemaViaGovernance who model mt loc s))
  | CreateSchemaViaGovernance creator model mt loc s => (* 377-394 *)
      ensure! governance o else ScBadOrigin in create st creator model mt loc s None
  | CreateSchemaV2 model mt loc s => (* 415-432 *)
      let! who := ensure_signed o in create st who model mt loc s None
  | ProposeToCreateSchemaV2 model mt loc s n => (* 443-466 *)
      let! who := ensure_signed o in
      ensure! council_ok else ScProposalRefused in
      Ok (sc_propose st who (CreateSchemaViaGovernanceV2 who model mt loc s n))
  | CreateSchemaViaGovernanceV2 creator model mt loc s n => (* 491-518 *)
      ensure! governance o else ScBadOrigin in create st creator model mt loc s n
  | CreateSchemaV3 model mt loc s n => (* 550-577 *)
      let! who := ensure_signed o in create st who model mt loc s n
  | ProposeToCreateSchemaName id n => (* 594-608 *)
      let! who := ensure_signed o in
      let! _ := parse_and_verify st id n in
      ensure! council_ok else ScProposalRefused in
      Ok (sc_propose st who (CreateSchemaNameViaGovernance id n))
  | CreateSchemaNameViaGovernance id n => (* 631-652 *)
      ensure! governance o else ScBadOrigin in
      let! parsed := parse_and_verify st id n in
      let! st' := add_name st parsed id in
      Ok (sc_emit st' [SchemaNameCreated id (get_combined_name parsed)])
  end.

Record ScX := { sx_origin : ScOrigin; sx_council_ok : bool; sx_call : ScCall }.
Definition sc_apply (st : ScState) (x : ScX) : res ScErr ScState := sc_dispatch st (sx_origin x) (sx_council_ok x) (sx_call x).
(** A failed call leaves no trace (transactional dispatch). *)
Definition sc_step (st : ScState) (x : ScX) : ScState := match sc_apply st x with Ok st' => st' | Err _ => st end.
Definition sc_run (st : ScState) (h : list ScX) : ScState := fold_left sc_step h st.
End sc.

(** ** Queries *)
(** lib.rs:701-722; the settings are listed in the order of their bits *)
Record SchemaResponse := { sr_model : list N; sr_model_type : ModelType; sr_location : PayloadLocation; sr_settings : list SchemaSetting }.
Definition settings_list (s : SchemaSettings) : list SchemaSetting :=
  (if set_append_only s then [AppendOnly] else []) ++ (if set_signature_required s then [SignatureRequired] else []).
Definition get_schema_by_id (st : ScState) (id : N) : option SchemaResponse :=
  match sc_infos st !! id, sc_models st !! id with
  | Some i, Some m =>
      Some {| sr_model := m; sr_model_type := si_model_type (in_info i); sr_location := si_location (in_info i);
              sr_settings := settings_list (si_settings (in_info i)) |}
  | _, _ => None
  end.
(** lib.rs:725-738 *)
Definition get_schema_info_by_id (st : ScState) (id : N) : option SchemaInfo :=
  match sc_infos st !! id with Some i => Some (in_info i) | None => None end.
(** lib.rs:827-840. [iter_prefix] walks the descriptors in the order of their
    hashes; here it is the order of the map. *)
Definition get_schema_versions (st : ScState) (name : list N) : option (list VersionResponse) :=
  if len name <=? SCHEMA_NAME_BYTES_MAX then
    match try_parse name false with
    | Err _ => None
    | Ok n =>
        if 0 <? len (nm_descriptor n) then Some (convert_to_response n (ids_of st n))
        else Some (flat_map (fun kv =>
               if bool_decide (fst (fst kv) = nm_namespace n)
               then convert_to_response {| nm_namespace := nm_namespace n; nm_descriptor := snd (fst kv) |} (snd kv) else [])
               (map_to_list (sc_names st)))
    end
  else None.
(** lib.rs:881-886 *)
Definition are_all_schema_ids_valid (st : ScState) (ids : list N) : bool := forallb (fun id => id <=? sc_count st) ids.

(** ** Migration to version 4: migration/v4.rs:94-169. [known]: the ids and
    names of v4.rs:25-32, which the code uses on the main network only. *)
Definition known_schemas : list (N * list N) :=
  [ (5, [100; 115; 110; 112; 46; 117; 112; 100; 97; 116; 101])
  ; (6, [100; 115; 110; 112; 46; 112; 114; 111; 102; 105; 108; 101])
  ; (7, [100; 115; 110; 112; 46; 112; 117; 98; 108; 105; 99; 45; 107; 101; 121; 45; 107; 101; 121; 45; 97; 103; 114; 101; 101; 109; 101; 110; 116])
  ; (8, [100; 115; 110; 112; 46; 112; 117; 98; 108; 105; 99; 45; 102; 111; 108; 108; 111; 119; 115])
  ; (9, [100; 115; 110; 112; 46; 112; 114; 105; 118; 97; 116; 101; 45; 102; 111; 108; 108; 111; 119; 115])
  ; (10, [100; 115; 110; 112; 46; 112; 114; 105; 118; 97; 116; 101; 45; 99; 111; 110; 110; 101; 99; 116; 105; 111; 110; 115]) ].
(** v4.rs:106-143 *)
Definition migrate_one (st : ScState) (kv : N * list N) : ScState :=
  let (id, name) := kv in
  match sc_infos st !! id with
  | None => st
  | Some info =>
      if len name <=? SCHEMA_NAME_BYTES_MAX then
        match try_parse name true with
        | Err _ => st
        | Ok n =>
            {| sc_max_bytes := sc_max_bytes st; sc_count := sc_count st;
               sc_infos := <[id := {| in_info := in_info info; in_has_name := true |}]> (sc_infos st);
               sc_models := sc_models st;
               sc_names := <[(nm_namespace n, nm_descriptor n) := [id]]> (sc_names st);
               sc_version := sc_version st; sc_events := sc_events st; sc_proposals := sc_proposals st |}
        end
      else st
  end.
Definition migrate_to_v4 (main_net : bool) (st : ScState) : ScState :=
  if sc_version st <? 4 then
    let st' := fold_left migrate_one (if main_net then known_schemas else []) st in
    {| sc_max_bytes := sc_max_bytes st'; sc_count := sc_count st'; sc_infos := sc_infos st'; sc_models := sc_models st';
       sc_names := sc_names st'; sc_version := 4; sc_events := sc_events st'; sc_proposals := sc_proposals st' |}
  else st.

(** The runtime: runtime/common/src/constants.rs:93-101 *)
Definition runtime_schemas (valid : ModelType -> list N -> bool) : ScCfg :=
  {| sf_min_bytes := 8; sf_hard_max := 65500; sf_max_settings := 2; sf_valid_model := valid |}.

(** Properties of the schema registry (pallets/schemas). [sc_run cfg
    (sc_genesis g) h] is the state after the calls [h], failed ones included,
    from a genesis with the size limit [g]. *)
From Verif Require Import Prelude CommonTypes Utf8 ScModel ScSpec ScProofs ScFinal.

(** Example data. *)
Definition anything (_ : ModelType) (_ : list N) : bool := true.
Definition rt : ScCfg := runtime_schemas anything.
Definition model8 : list N := [1; 2; 3; 4; 5; 6; 7; 8].
Definition abc_d : list N := [97; 98; 99; 46; 100].          (* abc.d *)
Definition loud_abc_d : list N := [32; 65; 98; 67; 46; 68].  (* " AbC.D" *)
Definition abc_e : list N := [97; 98; 99; 46; 101].          (* abc.e *)
Definition named_create : ScX :=
  {| sx_origin := ScSigned 7; sx_council_ok := true; sx_call := CreateSchemaV3 model8 AvroBinary Itemized [AppendOnly] (Some loud_abc_d) |}.
Definition plain_create : ScX :=
  {| sx_origin := ScSigned 7; sx_council_ok := true; sx_call := CreateSchemaV2 model8 Parquet Paginated [SignatureRequired] |}.
Definition give_name (id : N) (p : list N) : ScX :=
  {| sx_origin := ScCouncil; sx_council_ok := true; sx_call := CreateSchemaNameViaGovernance id p |}.
Definition ex_h : list ScX := [named_create; plain_create; give_name 2 abc_d].

(** ** C70: ids are dense, unique and immutable *)
(** The ids announced are 1, 2, 3, ...; exactly these can be queried. *)
Theorem C70_ids_dense :
  forall cfg g h, let st := sc_run cfg (sc_genesis g) h in
  created st = map N.of_nat (seq 1 (length (created st)))
  /\ forall id, is_Some (get_schema_by_id st id) <-> 1 <= id <= len (created st).
Proof. exact ids_dense_lemma. Qed.
Print Assumptions C70_ids_dense.

(** Whatever happens later, a query answers the same. *)
Theorem C70_immutable :
  forall cfg g h h' id r i,
  get_schema_by_id (sc_run cfg (sc_genesis g) h) id = Some r ->
  get_schema_info_by_id (sc_run cfg (sc_genesis g) h) id = Some i ->
  get_schema_by_id (sc_run cfg (sc_genesis g) (h ++ h')) id = Some r
  /\ get_schema_info_by_id (sc_run cfg (sc_genesis g) (h ++ h')) id = Some i.
Proof. exact immutable_lemma. Qed.
Print Assumptions C70_immutable.

(** An accepted creation announces the next id, first of all, and the id answers
    with what was asked for. *)
Theorem C70_created_as_requested :
  forall cfg g h x r key b st', creates x = Some (r, key, b) ->
  sc_apply cfg (sc_run cfg (sc_genesis g) h) x = Ok st' ->
  let id := len (created (sc_run cfg (sc_genesis g) h)) + 1 in
  get_schema_by_id st' id = Some (response r)
  /\ exists es, sc_events st' = sc_events (sc_run cfg (sc_genesis g) h) ++ SchemaCreated key id :: es
     /\ match rq_name r with
        | None => es = []
        | Some p => exists n, means p n /\ es = [SchemaNameCreated id (full_name n)]
        end.
Proof. exact create_effect. Qed.
Print Assumptions C70_created_as_requested.

Example C70_nonvacuous :
  created (sc_run rt (sc_genesis 1000) ex_h) = [1; 2]
  /\ get_schema_by_id (sc_run rt (sc_genesis 1000) ex_h) 1
     = Some {| sr_model := model8; sr_model_type := AvroBinary; sr_location := Itemized; sr_settings := [AppendOnly] |}
  /\ is_ok (sc_apply rt (sc_run rt (sc_genesis 1000) ex_h) named_create) = true.
Proof. vm_compute. repeat split. Qed.

(** ** C71: versions of a name *)
(** The query for a name, however it is spelt, lists the ids announced under the
    name, oldest first, with the versions 1, 2, 3, ... *)
Theorem C71_versions :
  forall cfg g h p n, means p n ->
  let st := sc_run cfg (sc_genesis g) h in
  get_schema_versions st p = Some (versions (full_name n) (named (full_name n) st)).
Proof. exact versions_lemma. Qed.
Print Assumptions C71_versions.

(** No id occurs twice under a name, every id is registered, and there are at
    most 254. *)
Theorem C71_ids_of_a_name :
  forall cfg g h name, let st := sc_run cfg (sc_genesis g) h in
  NoDup (named name st) /\ len (named name st) <= 254 /\ forall id, id ∈ named name st -> 1 <= id <= len (created st).
Proof. exact named_nodup_lemma. Qed.
Print Assumptions C71_ids_of_a_name.

(** The query for a namespace lists, each once, the versions of its names. *)
Theorem C71_namespace :
  forall cfg g h p ns, len p <= 32 -> word ns -> 3 <= len ns <= 30 -> spells p ns ->
  let st := sc_run cfg (sc_genesis g) h in
  exists l, get_schema_versions st p = Some l /\ NoDup l
    /\ forall v, v ∈ l <-> exists d i, canonical {| nm_namespace := ns; nm_descriptor := d |}
         /\ vr_name v = full_name {| nm_namespace := ns; nm_descriptor := d |}
         /\ named (vr_name v) st !! i = Some (vr_id v) /\ vr_version v = N.of_nat i + 1.
Proof. exact namespace_lemma. Qed.
Print Assumptions C71_namespace.

(** Governance may name an unnamed schema exactly if the name is a name and is
    not used up. *)
Theorem C71_naming_accepted :
  forall cfg g h o ok id p, o = ScRoot \/ o = ScCouncil ->
  let st := sc_run cfg (sc_genesis g) h in
  names_of id st = [] -> 1 <= id <= len (created st) ->
  is_ok (sc_apply cfg st {| sx_origin := o; sx_council_ok := ok; sx_call := CreateSchemaNameViaGovernance id p |}) = true
  <-> exists n, means p n /\ name_free st n.
Proof. exact name_unnamed_lemma. Qed.
Print Assumptions C71_naming_accepted.

(** Naming appends the id to the ids of that name and to no other. *)
Theorem C71_naming_effect :
  forall cfg g h x id p st', sx_call x = CreateSchemaNameViaGovernance id p ->
  sc_apply cfg (sc_run cfg (sc_genesis g) h) x = Ok st' ->
  (sx_origin x = ScRoot \/ sx_origin x = ScCouncil) /\ 1 <= id <= len (created (sc_run cfg (sc_genesis g) h)) /\
  exists n, means p n
    /\ forall nm, named nm st' = named nm (sc_run cfg (sc_genesis g) h) ++ (if bool_decide (nm = full_name n) then [id] else []).
Proof. exact name_effect. Qed.
Print Assumptions C71_naming_effect.

Example C71_nonvacuous :
  get_schema_versions (sc_run rt (sc_genesis 1000) ex_h) loud_abc_d
  = Some [ {| vr_name := abc_d; vr_id := 1; vr_version := 1 |}; {| vr_name := abc_d; vr_id := 2; vr_version := 2 |} ]
  /\ get_schema_versions (sc_run rt (sc_genesis 1000) ex_h) [65; 66; 67]
  = Some [ {| vr_name := abc_d; vr_id := 1; vr_version := 1 |}; {| vr_name := abc_d; vr_id := 2; vr_version := 2 |} ]
  /\ names_of 2 (sc_run rt (sc_genesis 1000) [named_create; plain_create]) = [].
Proof. vm_compute. repeat split. Qed.

(** ** C72: a schema has at most one name *)
(** Proved for schemas that were created with their name. Missing: schemas named
    later, for which it is false (below). *)
Theorem C72_one_name_partial :
  forall cfg g h x r key b p st' n h', creates x = Some (r, key, b) -> rq_name r = Some p -> means p n ->
  sc_apply cfg (sc_run cfg (sc_genesis g) h) x = Ok st' ->
  names_of (len (created (sc_run cfg (sc_genesis g) h)) + 1) (sc_run cfg (sc_genesis g) (h ++ x :: h')) = [full_name n].
Proof. exact one_name_lemma. Qed.
Print Assumptions C72_one_name_partial.

(** Naming through governance does not mark the schema as named
    (create_schema_name_via_governance), so a second name is accepted. *)
Theorem C72_second_name_refuted :
  exists h id n1 n2, n1 <> n2 /\ names_of id (sc_run rt (sc_genesis 1000) h) = [n1; n2].
Proof.
  exists [plain_create; give_name 1 abc_d; give_name 1 abc_e], 1, abc_d, abc_e. split; [discriminate|]. vm_compute. reflexivity.
Qed.
Print Assumptions C72_second_name_refuted.

Example C72_nonvacuous :
  is_ok (sc_apply rt (sc_run rt (sc_genesis 1000) [plain_create]) named_create) = true
  /\ names_of 2 (sc_run rt (sc_genesis 1000) ([plain_create] ++ named_create :: [give_name 2 abc_e])) = [abc_d].
Proof. vm_compute. repeat split. Qed.

(** ** C73: names are canonical *)
(** A payload is accepted as a name exactly if it is a canonical name in any case
    with blanks around it. *)
Theorem C73_accepted :
  forall p n, len p <= 32 -> try_parse p true = Ok n <-> canonical n /\ spells p (full_name n).
Proof. exact parse_strict. Qed.
Print Assumptions C73_accepted.

(** A query accepts, besides, a namespace alone. *)
Theorem C73_queried :
  forall p n, len p <= 32 -> try_parse p false = Ok n <->
  (canonical n /\ spells p (full_name n))
  \/ (nm_descriptor n = [] /\ word (nm_namespace n) /\ 3 <= len (nm_namespace n) <= 30 /\ spells p (nm_namespace n)).
Proof. exact parse_lax. Qed.
Print Assumptions C73_queried.

(** The text of an accepted name is accepted and is the same name; different
    names have different texts. *)
Theorem C73_idempotent :
  forall p n, len p <= 32 -> try_parse p true = Ok n -> len (full_name n) <= 32 /\ try_parse (full_name n) true = Ok n.
Proof.
  intros p n Hl H. apply parse_strict in H as [Hc Hs]; [|done]. assert (len (full_name n) <= 32) by (apply spells_len in Hs; lia).
  split; [done|]. apply parse_strict; [done|]. split; [done|by apply spells_self].
Qed.
Print Assumptions C73_idempotent.
Theorem C73_text_determines_name :
  forall n n', canonical n -> canonical n' -> full_name n = full_name n' -> n = n'.
Proof. exact full_name_inj. Qed.
Print Assumptions C73_text_determines_name.

Example C73_nonvacuous :
  try_parse loud_abc_d true = Ok {| nm_namespace := [97; 98; 99]; nm_descriptor := [100] |}
  /\ is_ok (try_parse [97; 98; 46; 99] true) = false /\ is_ok (try_parse [97; 98; 99; 46; 45; 99] true) = false
  /\ is_ok (try_parse [97; 98; 99; 46; 100; 46; 101] true) = false /\ is_ok (try_parse [97; 98; 99] true) = false.
Proof. vm_compute. repeat split. Qed.

(** ** C74: size and settings *)
Theorem C74_every_schema :
  forall cfg g h id r, get_schema_by_id (sc_run cfg (sc_genesis g) h) id = Some r ->
  sf_min_bytes cfg <= len (sr_model r) <= sf_hard_max cfg /\ sf_valid_model cfg (sr_model_type r) (sr_model r) = true
  /\ (AppendOnly ∈ sr_settings r -> sr_location r = Itemized).
Proof. exact rules_lemma. Qed.
Print Assumptions C74_every_schema.

(** The limit in force is the one announced last, and, if the genesis respects
    the hard maximum, so does every later limit. *)
Theorem C74_limit_announced :
  forall cfg g h, sc_max_bytes (sc_run cfg (sc_genesis g) h) = announced_max g (sc_run cfg (sc_genesis g) h).
Proof. exact announced_max_lemma. Qed.
Print Assumptions C74_limit_announced.
Theorem C74_limit_bounded_partial :
  forall cfg g h, g <= sf_hard_max cfg -> sc_max_bytes (sc_run cfg (sc_genesis g) h) <= sf_hard_max cfg.
Proof. exact max_lemma. Qed.
Print Assumptions C74_limit_bounded_partial.
(** The genesis is not checked. *)
Theorem C74_genesis_refuted :
  exists g, g <= u32_max /\ sf_hard_max rt < sc_max_bytes (sc_run rt (sc_genesis g) []).
Proof. exists 65501. vm_compute. split; [discriminate|reflexivity]. Qed.
Print Assumptions C74_genesis_refuted.

Example C74_nonvacuous :
  let set := {| sx_origin := ScRoot; sx_council_ok := true; sx_call := SetMaxSchemaModelBytes 7 |} in
  sc_max_bytes (sc_run rt (sc_genesis 1000) [set]) = 7 /\ created (sc_run rt (sc_genesis 1000) [plain_create; set; plain_create]) = [1].
Proof. vm_compute. repeat split. Qed.

(** ** C100: when a schema is created *)
Theorem C100_creation_accepted_partial :
  forall cfg g h x r key allowed, creates x = Some (r, key, allowed) ->
  let st := sc_run cfg (sc_genesis g) h in
  is_ok (sc_apply cfg st x) = true <-> allowed = true /\ creatable cfg st r.
Proof. exact create_iff. Qed.
Print Assumptions C100_creation_accepted_partial.

Example C100_nonvacuous :
  let st := sc_run rt (sc_genesis 1000) ex_h in
  is_ok (sc_apply rt st plain_create) = true
  /\ is_ok (sc_apply rt st {| sx_origin := ScRoot; sx_council_ok := true; sx_call := CreateSchemaV2 model8 Parquet Paginated [] |}) = false
  /\ is_ok (sc_apply rt st {| sx_origin := ScSigned 7; sx_council_ok := true; sx_call := CreateSchemaV2 model8 Parquet Paginated [AppendOnly] |}) = false
  /\ is_ok (sc_apply rt st {| sx_origin := ScSigned 7; sx_council_ok := true; sx_call := CreateSchemaV2 [1; 2; 3; 4; 5; 6; 7] Parquet Paginated [] |}) = false.
Proof. vm_compute. repeat split. Qed.

(** The configured maximum number of schemas, 65000
    (runtime/common/src/constants.rs, SchemasMaxRegistrations), is not enforced:
    every number of schemas that a 16 bit counter holds is reached. *)
Theorem C100_any_number_reached :
  forall k, N.of_nat k <= 65535 -> exists h, len (created (sc_run rt (sc_genesis 1000) h)) = N.of_nat k.
Proof.
  intros k. refine (many_schemas rt 1000 k plain_create _ 7 eq_refl eq_refl _).
  split; [reflexivity|]. split; [split; vm_compute; discriminate|]. split; [vm_compute; discriminate|]. split; [vm_compute; discriminate|].
  split; [intros H; apply elem_of_list_singleton in H; discriminate|]. split; [vm_compute; reflexivity|]. intros p [=].
Qed.
Print Assumptions C100_any_number_reached.
Theorem C100_registration_limit_refuted :
  exists h, 65000 < len (created (sc_run rt (sc_genesis 1000) h)).
Proof.
  destruct (C100_any_number_reached (N.to_nat 65001)) as (h & Hh); [lia|]. exists h. rewrite Hh. lia.
Qed.
Print Assumptions C100_registration_limit_refuted.

(** ** C101: who may do what *)
(** A signed account changes neither the size limit nor the names of registered
    schemas; all it can do to the registry is to append a schema announced under
    its own key. *)
Theorem C101_signed_accounts :
  forall cfg g h x who, sx_origin x = ScSigned who ->
  let st := sc_run cfg (sc_genesis g) h in let st' := sc_run cfg (sc_genesis g) (h ++ [x]) in
  sc_max_bytes st' = sc_max_bytes st
  /\ (forall id, id <= len (created st) -> names_of id st' = names_of id st)
  /\ (created st' = created st
      \/ created st' = created st ++ [len (created st) + 1] /\ SchemaCreated who (len (created st) + 1) ∈ sc_events st').
Proof. exact authority_lemma. Qed.
Print Assumptions C101_signed_accounts.

(** A proposal hands the council the matching governance call, with the proposer
    as creator, and does nothing else. *)
Theorem C101_proposals :
  forall cfg g h x who c st', sx_origin x = ScSigned who -> proposed who (sx_call x) = Some c ->
  sc_apply cfg (sc_run cfg (sc_genesis g) h) x = Ok st' ->
  let st := sc_run cfg (sc_genesis g) h in
  st' = {| sc_max_bytes := sc_max_bytes st; sc_count := sc_count st; sc_infos := sc_infos st; sc_models := sc_models st;
           sc_names := sc_names st; sc_version := sc_version st; sc_events := sc_events st;
           sc_proposals := sc_proposals st ++ [(who, c)] |}.
Proof. exact propose_lemma. Qed.
Print Assumptions C101_proposals.

Example C101_nonvacuous :
  is_ok (sc_apply rt (sc_run rt (sc_genesis 1000) ex_h)
    {| sx_origin := ScSigned 7; sx_council_ok := true; sx_call := ProposeToCreateSchemaName 2 abc_e |}) = true.
Proof. vm_compute. reflexivity. Qed.

(** ** C103: checking schema ids *)
(** Missing: the id 0, for which it is false (below). *)
Theorem C103_ids_valid_partial :
  forall cfg g h ids, Forall (fun id => 0 < id) ids ->
  are_all_schema_ids_valid (sc_run cfg (sc_genesis g) h) ids = true
  <-> Forall (fun id => is_Some (get_schema_by_id (sc_run cfg (sc_genesis g) h) id)) ids.
Proof.
  intros cfg g h ids H0. rewrite (valid_ids_lemma cfg g h ids), !Forall_forall. rewrite Forall_forall in H0. split; intros H id Hid.
  - destruct (H id Hid) as [E|?]; [|done]. specialize (H0 id Hid). lia.
  - right. by apply H.
Qed.
Print Assumptions C103_ids_valid_partial.
Theorem C103_id_zero_refuted :
  exists h, are_all_schema_ids_valid (sc_run rt (sc_genesis 1000) h) [0] = true /\ get_schema_by_id (sc_run rt (sc_genesis 1000) h) 0 = None.
Proof. exists ex_h. vm_compute. split; reflexivity. Qed.
Print Assumptions C103_id_zero_refuted.

Example C103_nonvacuous :
  are_all_schema_ids_valid (sc_run rt (sc_genesis 1000) ex_h) [2; 1; 2] = true
  /\ are_all_schema_ids_valid (sc_run rt (sc_genesis 1000) ex_h) [2; 3] = false.
Proof. vm_compute. repeat split. Qed.

(** ** C104: the migration to named schemas *)
(** On the main network every known schema that exists gets its name, as its
    first and only version, and can be given no other. *)
Theorem C104_known_schemas_named :
  forall st id name, sc_version st < 4 -> (id, name) ∈ known_schemas -> is_Some (get_schema_info_by_id st id) ->
  get_schema_versions (migrate_to_v4 true st) name = Some [{| vr_name := name; vr_id := id; vr_version := 1 |}]
  /\ forall cfg o ok p,
       is_ok (sc_apply cfg (migrate_to_v4 true st) {| sx_origin := o; sx_council_ok := ok; sx_call := CreateSchemaNameViaGovernance id p |}) = false.
Proof. exact migrate_known. Qed.
Print Assumptions C104_known_schemas_named.

(** Nothing else changes, on any network: the schemas, the counter, the limit,
    and every name that is not a known one. *)
Theorem C104_rest_unchanged :
  forall main_net st, let st' := migrate_to_v4 main_net st in
  (forall id, get_schema_by_id st' id = get_schema_by_id st id)
  /\ (forall id, get_schema_info_by_id st' id = get_schema_info_by_id st id)
  /\ sc_count st' = sc_count st /\ sc_max_bytes st' = sc_max_bytes st
  /\ (forall p n, means p n -> full_name n ∉ map snd known_schemas -> get_schema_versions st' p = get_schema_versions st p).
Proof. exact migrate_keeps. Qed.
Print Assumptions C104_rest_unchanged.

(** Running it again, or on a migrated chain, changes nothing. *)
Theorem C104_idempotent :
  forall b b' st, migrate_to_v4 b' (migrate_to_v4 b st) = migrate_to_v4 b st /\ (4 <= sc_version st -> migrate_to_v4 b st = st).
Proof.
  intros b b' st. split; [apply migrate_again|]. intros H. unfold migrate_to_v4. by rewrite (proj2 (N.ltb_ge _ _) H).
Qed.
Print Assumptions C104_idempotent.

Example C104_nonvacuous :
  let h := [plain_create; plain_create; plain_create; plain_create; plain_create; plain_create] in
  let st := sc_run rt (sc_genesis 1000) h in
  let old := {| sc_max_bytes := sc_max_bytes st; sc_count := sc_count st; sc_infos := sc_infos st; sc_models := sc_models st;
                sc_names := sc_names st; sc_version := 3; sc_events := sc_events st; sc_proposals := sc_proposals st |} in
  is_ok (match get_schema_info_by_id old 6 with Some i => Ok i | None => Err tt end) = true
  /\ get_schema_versions (migrate_to_v4 true old) [68; 115; 110; 112; 46; 112; 114; 111; 102; 105; 108; 101]
     = Some [{| vr_name := [100; 115; 110; 112; 46; 112; 114; 111; 102; 105; 108; 101]; vr_id := 6; vr_version := 1 |}].
Proof. vm_compute. repeat split. Qed.

(** Properties C40-C49, C98 and the storage part of C93. Histories are arbitrary
    lists of calls with arbitrary origins, each with its own view of the MSA and
    schemas pallets. [sizes_ok] and [hashes_ok] are met by the runtime's
    parameters if Blake2-128 does not collide on MSA ids, see
    [C45_runtime_parameters]; [key_hash_ok], needed for C49, says that Twox128
    does not collide on the 65536 schema ids ([C49_schema_keys_differ]). *)
From Verif Require Import Prelude Scale ScaleDec CommonTypes SigModel MsaModel MsaSpec MsaMoreProofs MsaProperties XxHash
  StModel StSpec StProofs StMoreProofs StPayloadProofs StFinal.

Definition st_after (cfg : StCfg) (h : list StStep) : StState := st_run cfg st_genesis h.

(** ** A concrete history for the examples: the runtime's limits with a toy
    signature scheme and, for the hashes, padding (and sums for page hashes).
    MSA 2 owns the data; its keys are 2 and 3. MSA 1 (key 1) may write schemas 4
    and 5 for it. *)
Definition pad (n : nat) (d : list N) : list N := take n (d ++ replicate n 0).
Definition toy_sum (d : list N) : N := 4294967296 * fold_left (fun h b => (31 * h + b + 1) mod 4294967296) d 7.
Definition toy_hashes (verify : N -> N -> list N -> bool) : StCfg :=
  {| f_max_item_page := 10260; f_max_page := 1024; f_max_blob := 1024; f_max_page_id := 32; f_max_actions := 5;
     f_window := 14400; f_blake128 := pad 16; f_twox64 := pad 8; f_key := pad 16; f_key_len := 16; f_page := toy_sum;
     f_verify := verify |}.
Definition toy_st : StCfg := toy_hashes (fun s k _ => s mod 1000 =? k).
Definition toy_schema (s : N) : option SchemaInfo :=
  let mk l a g := Some {| si_model_type := AvroBinary; si_location := l; si_settings := {| set_append_only := a; set_signature_required := g |} |} in
  if s =? 4 then mk Itemized false false else if s =? 5 then mk Paginated false false
  else if s =? 6 then mk Itemized true false else if s =? 7 then mk Paginated false true else None.
Definition toy_view (b : N) : StEnv := {| v_env := toy_env b; v_msa := toy_state; v_schema := toy_schema |}.
Definition stx (b who : N) (c : StCall) : StStep := {| x_env := toy_view b; x_origin := Signed who; x_call := c |}.

Lemma pad_length n d : length (pad n d) = n.
Proof. unfold pad. rewrite take_length, app_length, replicate_length. lia. Qed.

Lemma toy_ok verify : sizes_ok (toy_hashes verify) /\ hashes_ok (toy_hashes verify) /\ key_hash_ok (toy_hashes verify).
Proof.
  split; [done|]. split.
  - split; [|split; [|split; [|split]]]; try (intros x; apply pad_length); [|done].
    intros a b Ha Hb H. cbn [f_blake128 toy_hashes] in H.
    assert (Hx : forall x, pad 16 (enc_u64 x ++ [58; 58]) = enc_u64 x ++ [58; 58; 0; 0; 0; 0; 0; 0]) by done.
    rewrite !Hx in H. apply app_inj_1 in H as [H _]; [|by rewrite !enc_u64_length]. apply le_bytes_inj in H; [done|by apply u64_lt..].
  - intros a b Ha Hb H. cbn [f_key toy_hashes] in H.
    assert (Hx : forall x, pad 16 (enc_u16 x) = enc_u16 x ++ replicate 14 0) by done.
    rewrite !Hx in H. apply app_inv_tail in H. apply le_bytes_inj in H; [done|by apply u16_lt..].
Qed.

Lemma toy_view_ok b : env_ok (toy_view b).
Proof. apply (reachable_env_ok toy_cfg toy_history). reflexivity. Qed.

Definition toy_hash (st : StState) (l : Loc) : N :=
  match read toy_st st l with Ok p => content_hash toy_st p | Err _ => 0 end.

(** The provider adds two items, the owner deletes one of them and adds another;
    the provider writes page 3, and someone submits an item signed by key 3. *)
Definition toy_st1 : StState := st_step toy_st st_genesis (stx 20 1 (ApplyItemActions 2 4 0 [Add [7; 7]; Add [8]])).
Definition toy_st_history : list StStep :=
  [ stx 20 1 (ApplyItemActions 2 4 0 [Add [7; 7]; Add [8]]);
    stx 21 2 (ApplyItemActions 2 4 (toy_hash toy_st1 (ItemLoc 2 4)) [Add [9; 9; 9]; Delete 0]);
    stx 22 1 (UpsertPage 2 5 3 0 [1; 2; 3]);
    stx 23 99 (ApplyItemActionsWithSignatureV2 3 3 {| ip2_schema := 6; ip2_hash := 0; ip2_exp := 100; ip2_actions := [Add [5]] |}) ].
Definition toy_storage : StState := st_after toy_st toy_st_history.

Example toy_storage_reached :
  envs_ok toy_st_history /\
  read toy_st toy_storage (ItemLoc 2 4) = Ok (Some {| pg_nonce := 2; pg_data := [1; 0; 8; 3; 0; 9; 9; 9] |}) /\
  read toy_st toy_storage (PageLoc 2 5 3) = Ok (Some {| pg_nonce := 1; pg_data := [1; 2; 3] |}) /\
  read toy_st toy_storage (ItemLoc 2 6) = Ok (Some {| pg_nonce := 1; pg_data := [1; 0; 5] |}) /\
  len (st_events toy_storage) = 4.
Proof. split; [repeat constructor; apply toy_view_ok|]. repeat (split; [vm_compute; reflexivity|]); vm_compute; reflexivity. Qed.

(** ** C40. Parsing succeeds exactly on the bytes of at most 65535 items of at
    most 65535 bytes each, and returns them in order with their indexes. *)
Theorem C40_parse_iff :
  forall data l,
    Forall (fun b => b < 256) data ->
    try_parse false data = Ok l <->
    exists items, data = page_bytes items /\ l = numbered 0 items /\
      Forall (fun it => len it <= u16_max) items /\ len items <= u16_max.
Proof. exact parse_iff_lemma. Qed.
Print Assumptions C40_parse_iff.

(** C40. The bytes determine the items. *)
Theorem C40_encoding_unambiguous :
  forall a b,
    Forall (fun it => len it <= u16_max) a -> Forall (fun it => len it <= u16_max) b ->
    page_bytes a = page_bytes b -> a = b.
Proof. exact page_bytes_inj_lemma. Qed.
Print Assumptions C40_encoding_unambiguous.

Example C40_example :
  try_parse false [2; 0; 7; 7; 0; 0; 1; 0; 8] = Ok [(0, [7; 7]); (1, []); (2, [8])] /\
  try_parse false [2; 0; 7] = Err ErrorParsing.
Proof. split; vm_compute; reflexivity. Qed.

(** ** C41. Reading never fails, and what is read is within the limits. *)
Theorem C41_pages_within_limits :
  forall cfg h l,
    sizes_ok cfg -> hashes_ok cfg -> envs_ok h -> loc_ok l ->
    exists cur, read cfg (st_after cfg h) l = Ok cur /\
      forall p, cur = Some p -> len (pg_data p) <= max_size cfg l /\ page_id_ok cfg l.
Proof. exact limits_lemma. Qed.
Print Assumptions C41_pages_within_limits.

(** C41. Nothing else is stored: every entry of every child trie is such a page. *)
Theorem C41_every_entry_is_a_page :
  forall cfg h root key value,
    sizes_ok cfg -> hashes_ok cfg -> envs_ok h ->
    get_raw (st_after cfg h) root key = Some value ->
    exists l p, loc_ok l /\ value = enc_page p /\ read cfg (st_after cfg h) l = Ok (Some p).
Proof. exact entries_lemma. Qed.
Print Assumptions C41_every_entry_is_a_page.

Example C41_example :
  is_ok (st_dispatch toy_st (toy_view 30) toy_storage (Signed 1) (UpsertPage 2 5 32 0 (repeat 1 1024))) = true /\
  is_ok (st_dispatch toy_st (toy_view 30) toy_storage (Signed 1) (UpsertPage 2 5 32 0 (repeat 1 1025))) = false /\
  st_dispatch toy_st (toy_view 30) toy_storage (Signed 1) (UpsertPage 2 5 33 0 [1]) = Err SPageIdExceedsMaxAllowed.
Proof. repeat (split; [vm_compute; reflexivity|]); vm_compute; reflexivity. Qed.

(** ** C42. Actions are applied exactly: they are accepted if and only if the
    deleted indexes are distinct, in range and refer to the original items, and
    the result fits. *)
Theorem C42_item_actions_exact :
  forall cfg p items actions data,
    pg_data p = page_bytes items -> Forall (fun it => len it <= u16_max) items -> len items <= u16_max ->
    apply_item_actions cfg p actions = Ok {| pg_nonce := 0; pg_data := data |} <->
    NoDup (deleted actions) /\ Forall (fun i => i < len items) (deleted actions) /\
    Forall (fun d => len d <= u16_max) (added actions) /\
    data = page_bytes (kept items (deleted actions) ++ added actions) /\ len data <= f_max_item_page cfg.
Proof. exact actions_exact_lemma. Qed.
Print Assumptions C42_item_actions_exact.

(** C42. An index out of range rejects the whole call, wherever it stands. *)
Theorem C42_out_of_range_rejected :
  forall cfg h env o owner schema target actions items i cur,
    sizes_ok cfg -> hashes_ok cfg -> envs_ok h -> env_ok env -> owner <= u64_max -> schema <= u16_max ->
    read cfg (st_after cfg h) (ItemLoc owner schema) = Ok cur -> items_of cur items ->
    Delete i ∈ actions -> len items <= i ->
    is_ok (st_dispatch cfg env (st_after cfg h) o (ApplyItemActions owner schema target actions)) = false.
Proof. exact out_of_range_lemma. Qed.
Print Assumptions C42_out_of_range_rejected.

Example C42_example :
  kept [[10]; [11]; [12]; [13]] [2; 0] = [[11]; [13]] /\
  apply_item_actions toy_st {| pg_nonce := 5; pg_data := page_bytes [[10]; [11]; [12]] |} [Delete 2; Add [20; 21]; Delete 0]
  = Ok {| pg_nonce := 0; pg_data := [1; 0; 11; 2; 0; 20; 21] |} /\
  apply_item_actions toy_st {| pg_nonce := 5; pg_data := page_bytes [[10]; [11]; [12]] |} [Delete 2; Delete 2] = Err InvalidAction.
Proof. repeat (split; [vm_compute; reflexivity|]); vm_compute; reflexivity. Qed.

(** ** C43. A call is accepted exactly if it is well-formed, permitted and
    expects the content that is there; a rejected call changes nothing. *)
Theorem C43_accepted_iff :
  forall cfg h env o c,
    sizes_ok cfg -> hashes_ok cfg -> envs_ok h -> env_ok env ->
    is_ok (st_dispatch cfg env (st_after cfg h) o c) = true <->
    call_ok cfg c = true /\
    exists rq cur new, request env c = Some rq /\ page_id_ok cfg (rq_loc rq) /\ permitted cfg env o c rq /\
      read cfg (st_after cfg h) (rq_loc rq) = Ok cur /\ expects cfg cur rq /\ becomes cfg cur (rq_change rq) new.
Proof. exact accepted_lemma. Qed.
Print Assumptions C43_accepted_iff.

(** C43. The effect of an accepted call. *)
Theorem C43_accepted_effect :
  forall cfg h env o c st',
    sizes_ok cfg -> hashes_ok cfg -> envs_ok h -> env_ok env ->
    st_dispatch cfg env (st_after cfg h) o c = Ok st' ->
    exists rq cur new, request env c = Some rq /\
      read cfg (st_after cfg h) (rq_loc rq) = Ok cur /\ expects cfg cur rq /\
      becomes cfg cur (rq_change rq) new /\ read cfg st' (rq_loc rq) = Ok new.
Proof. exact effect_lemma. Qed.
Print Assumptions C43_accepted_effect.

(** C43. In particular a call that expects another content is rejected. *)
Theorem C43_stale_call_rejected :
  forall cfg h env o c rq p,
    sizes_ok cfg -> hashes_ok cfg -> envs_ok h -> env_ok env ->
    request env c = Some rq -> read cfg (st_after cfg h) (rq_loc rq) = Ok (Some p) ->
    rq_target rq <> content_hash cfg (Some p) ->
    is_ok (st_dispatch cfg env (st_after cfg h) o c) = false /\
    st_step cfg (st_after cfg h) {| x_env := env; x_origin := o; x_call := c |} = st_after cfg h.
Proof. exact stale_lemma. Qed.
Print Assumptions C43_stale_call_rejected.

(** The hash that the second transaction of the history expects is refused
    after it. *)
Example C43_example :
  toy_hash toy_st1 (ItemLoc 2 4) <> toy_hash toy_storage (ItemLoc 2 4) /\
  st_dispatch toy_st (toy_view 30) toy_storage (Signed 2) (ApplyItemActions 2 4 (toy_hash toy_st1 (ItemLoc 2 4)) [Add [1]]) = Err SStalePageState /\
  is_ok (st_dispatch toy_st (toy_view 30) toy_storage (Signed 2) (ApplyItemActions 2 4 (toy_hash toy_storage (ItemLoc 2 4)) [Add [1]])) = true.
Proof. split; [vm_compute; discriminate|]. split; vm_compute; reflexivity. Qed.

(** ** C44, as far as it holds. A payload that was applied is rejected for the
    same place as long as the place has not been vacant since, fewer than 65535
    further calls were made, and the hashes of the pages seen there do not
    collide. Missing: places that become vacant (every deletion makes one), see
    the refutations below. *)
Theorem C44_replay_rejected_partial :
  forall cfg h x st2 h2 y rq,
    sizes_ok cfg -> hashes_ok cfg -> envs_ok h -> env_ok (x_env x) -> envs_ok h2 -> env_ok (x_env y) ->
    st_dispatch cfg (x_env x) (st_after cfg h) (x_origin x) (x_call x) = Ok st2 ->
    x_call y = x_call x -> request (x_env x) (x_call x) = Some rq -> request (x_env y) (x_call y) = Some rq ->
    no_collision cfg (read cfg (st_after cfg h) (rq_loc rq) :: pages_seen cfg st2 h2 (rq_loc rq)) ->
    Forall (fun r => ~ vacant r) (pages_seen cfg st2 h2 (rq_loc rq)) ->
    len h2 < 65535 ->
    is_ok (st_dispatch cfg (x_env y) (st_run cfg st2 h2) (x_origin y) (x_call y)) = false.
Proof. exact replay_lemma. Qed.
Print Assumptions C44_replay_rejected_partial.

(** C44. In general, a payload is accepted twice only if the place holds the
    same content, nonce included, as the first time, or is vacant both times, or
    the call deletes a page that is not there. *)
Theorem C44_replay_needs_same_content_partial :
  forall cfg h x st2 h3 y rq,
    sizes_ok cfg -> hashes_ok cfg -> envs_ok h -> env_ok (x_env x) -> envs_ok h3 -> env_ok (x_env y) ->
    st_dispatch cfg (x_env x) (st_after cfg h) (x_origin x) (x_call x) = Ok st2 ->
    x_call y = x_call x -> request (x_env x) (x_call x) = Some rq -> request (x_env y) (x_call y) = Some rq ->
    no_collision cfg [read cfg (st_after cfg h) (rq_loc rq); read cfg (st_after cfg h3) (rq_loc rq)] ->
    is_ok (st_dispatch cfg (x_env y) (st_after cfg h3) (x_origin y) (x_call y)) = true ->
    read cfg (st_after cfg h3) (rq_loc rq) = read cfg (st_after cfg h) (rq_loc rq) \/
    (vacant (read cfg (st_after cfg h) (rq_loc rq)) /\ vacant (read cfg (st_after cfg h3) (rq_loc rq))) \/
    (rq_change rq = ChDelete /\ (read cfg (st_after cfg h3) (rq_loc rq) = Ok None \/ read cfg (st_after cfg h) (rq_loc rq) = Ok None)).
Proof. exact replay_same_lemma. Qed.
Print Assumptions C44_replay_needs_same_content_partial.

(** C44. The hash covers the nonce as well as the data: unless the first 32 bits
    of XxHash64 collide on them, pages that differ in either have different
    hashes. *)
Theorem C44_hash_covers_nonce_and_data_partial :
  forall cfg p q,
    pg_nonce p <= u16_max -> pg_nonce q <= u16_max -> pg_data p <> [] -> pg_data q <> [] ->
    (let a := enc_u16 (pg_nonce p) ++ pg_data p in let b := enc_u16 (pg_nonce q) ++ pg_data q in
     f_page cfg a / 4294967296 = f_page cfg b / 4294967296 -> a = b) ->
    get_hash cfg p = get_hash cfg q -> p = q.
Proof. exact hash_covers_lemma. Qed.
Print Assumptions C44_hash_covers_nonce_and_data_partial.
Example C44_hash_example :
  get_hash toy_st {| pg_nonce := 1; pg_data := [6; 6] |} <> get_hash toy_st {| pg_nonce := 2; pg_data := [6; 6] |}.
Proof. vm_compute. discriminate. Qed.

Definition signed_write : StStep :=
  stx 40 99 (UpsertPageWithSignatureV2 3 3 {| up2_schema := 7; up2_page := 0; up2_hash := 0; up2_exp := 200; up2_data := [6; 6] |}).
Example C44_example :
  let st2 := st_step toy_st toy_storage signed_write in
  read toy_st st2 (PageLoc 2 7 0) = Ok (Some {| pg_nonce := 1; pg_data := [6; 6] |}) /\
  st_dispatch toy_st (toy_view 41) st2 (Signed 99) (x_call signed_write) = Err SStalePageState.
Proof. repeat (split; [vm_compute; reflexivity|]); vm_compute; reflexivity. Qed.

(** C44, refuted: the owner signs a first write, later deletes the page, and
    anyone can bring the page back with the old signature. *)
Theorem C44_replay_after_delete_refuted :
  exists x y z,
    envs_ok [x; y; z] /\ x_call z = x_call x /\ signature_of (x_call x) <> None /\
    (exists who, x_origin y = Signed who /\ controls (v_msa (x_env y)) who 2) /\
    let st1 := st_step toy_st toy_storage x in
    let st2 := st_step toy_st st1 y in
    let st3 := st_step toy_st st2 z in
    read toy_st st1 (PageLoc 2 7 0) = Ok (Some {| pg_nonce := 1; pg_data := [6; 6] |}) /\
    read toy_st st2 (PageLoc 2 7 0) = Ok None /\
    read toy_st st3 (PageLoc 2 7 0) = Ok (Some {| pg_nonce := 1; pg_data := [6; 6] |}).
Proof.
  exists signed_write, (stx 41 2 (DeletePage 2 7 0 (toy_hash (st_step toy_st toy_storage signed_write) (PageLoc 2 7 0)))), signed_write.
  split; [repeat constructor; apply toy_view_ok|]. split; [done|]. split; [done|]. split; [by exists 2|].
  repeat (split; [vm_compute; reflexivity|]); vm_compute; reflexivity.
Qed.
Print Assumptions C44_replay_after_delete_refuted.

(** C44, refuted: nonces restart after a deletion, so a signed deletion works
    again when the owner writes the same content again. *)
Theorem C44_delete_replay_refuted :
  exists w x y z,
    envs_ok [w; x; y; z] /\ x_call z = x_call x /\ signature_of (x_call x) <> None /\
    (exists who, x_origin y = Signed who /\ controls (v_msa (x_env y)) who 2) /\
    let st0 := st_step toy_st toy_storage w in
    let st1 := st_step toy_st st0 x in
    let st2 := st_step toy_st st1 y in
    let st3 := st_step toy_st st2 z in
    read toy_st st0 (PageLoc 2 5 0) = Ok (Some {| pg_nonce := 1; pg_data := [4] |}) /\
    read toy_st st1 (PageLoc 2 5 0) = Ok None /\
    read toy_st st2 (PageLoc 2 5 0) = Ok (Some {| pg_nonce := 1; pg_data := [4] |}) /\
    read toy_st st3 (PageLoc 2 5 0) = Ok None.
Proof.
  set (w := stx 40 2 (UpsertPage 2 5 0 0 [4])).
  set (x := stx 41 99 (DeletePageWithSignatureV2 3 3
    {| dp2_schema := 5; dp2_page := 0; dp2_hash := toy_hash (st_step toy_st toy_storage w) (PageLoc 2 5 0); dp2_exp := 200 |})).
  exists w, x, w, x.
  split; [repeat constructor; apply toy_view_ok|]. split; [done|]. split; [done|]. split; [by exists 2|].
  repeat (split; [vm_compute; reflexivity|]); vm_compute; reflexivity.
Qed.
Print Assumptions C44_delete_replay_refuted.

(** C44, refuted: a page without data has hash 0, like no page, so a signed
    write of no data can be repeated. *)
Theorem C44_empty_page_replay_refuted :
  exists x, env_ok (x_env x) /\ signature_of (x_call x) <> None /\
    let st1 := st_step toy_st toy_storage x in
    read toy_st st1 (PageLoc 2 7 0) = Ok (Some {| pg_nonce := 1; pg_data := [] |}) /\
    read toy_st (st_step toy_st st1 x) (PageLoc 2 7 0) = Ok (Some {| pg_nonce := 2; pg_data := [] |}).
Proof.
  exists (stx 40 99 (UpsertPageWithSignatureV2 3 3 {| up2_schema := 7; up2_page := 0; up2_hash := 0; up2_exp := 200; up2_data := [] |})).
  split; [apply toy_view_ok|]. split; [done|]. repeat (split; [vm_compute; reflexivity|]); vm_compute; reflexivity.
Qed.
Print Assumptions C44_empty_page_replay_refuted.

(** C44, refuted: a version-2 payload does not name the MSA. When key 3 leaves
    MSA 2 and creates MSA 4, its old signature writes to MSA 4. *)
Definition toy_state_moved : MsaState :=
  msa_run toy_cfg toy_state [tx 45 (Signed 2) (DeletePublicKey 3); tx 46 (Signed 3) Create].
Lemma moved_reached :
  toy_state_moved = msa_run toy_cfg msa_genesis (toy_history ++ [tx 45 (Signed 2) (DeletePublicKey 3); tx 46 (Signed 3) Create]).
Proof. unfold toy_state_moved, toy_state. symmetry. apply MsaProofs.msa_run_app. Qed.
Theorem C44_payload_follows_key_refuted :
  exists x z, env_ok (x_env x) /\ env_ok (x_env z) /\ x_call z = x_call x /\ signature_of (x_call x) <> None /\
    v_msa (x_env x) = toy_state /\ v_msa (x_env z) = toy_state_moved /\
    let st1 := st_step toy_st toy_storage x in
    let st2 := st_step toy_st st1 z in
    read toy_st st1 (PageLoc 2 7 0) = Ok (Some {| pg_nonce := 1; pg_data := [6; 6] |}) /\
    read toy_st st2 (PageLoc 4 7 0) = Ok (Some {| pg_nonce := 1; pg_data := [6; 6] |}).
Proof.
  exists signed_write, {| x_env := {| v_env := toy_env 50; v_msa := toy_state_moved; v_schema := toy_schema |};
                          x_origin := Signed 99; x_call := x_call signed_write |}.
  split; [exact (toy_view_ok 40)|]. split.
  { eapply reachable_env_ok. exact moved_reached. }
  split; [reflexivity|]. split; [discriminate|]. split; [reflexivity|]. split; [reflexivity|]. split; vm_compute; reflexivity.
Qed.
Print Assumptions C44_payload_follows_key_refuted.

(** ** C45. Steps that do not address a place leave what is read there. *)
Theorem C45_writes_isolated :
  forall cfg h h' l,
    sizes_ok cfg -> hashes_ok cfg -> envs_ok h -> envs_ok h' -> loc_ok l ->
    Forall (fun x => forall rq, request (x_env x) (x_call x) = Some rq -> rq_loc rq <> l) h' ->
    read cfg (st_after cfg (h ++ h')) l = read cfg (st_after cfg h) l.
Proof. exact isolated_lemma. Qed.
Print Assumptions C45_writes_isolated.

(** The hypotheses hold in the runtime: XXH64 is modelled; of Blake2-128 we
    assume that it has no collision on MSA ids; the MSA ids of every reachable
    state of the MSA pallet fit. *)
Theorem C45_runtime_parameters :
  forall blake verify mcfg h env,
    blake_ok blake ->
    sizes_ok (st_runtime blake verify) /\ hashes_ok (st_runtime blake verify) /\
    (v_msa env = msa_run mcfg msa_genesis h -> env_ok env).
Proof. exact runtime_lemma. Qed.
Print Assumptions C45_runtime_parameters.

Example C45_example :
  Forall (fun x => forall rq, request (x_env x) (x_call x) = Some rq -> rq_loc rq <> PageLoc 2 5 3)
    [stx 30 2 (UpsertPage 2 5 2 0 [1]); stx 30 1 (UpsertPage 1 5 3 0 [1])] /\
  read toy_st (st_step toy_st toy_storage (stx 30 2 (UpsertPage 2 5 2 0 [1]))) (PageLoc 2 5 2)
  = Ok (Some {| pg_nonce := 1; pg_data := [1] |}).
Proof. split; [repeat constructor; by intros rq [= <-]|vm_compute; reflexivity]. Qed.

(** ** C46. Under an append-only schema the list of items only grows. *)
Theorem C46_append_only_items_permanent :
  forall cfg h h' env m s hash nonce items,
    sizes_ok cfg -> hashes_ok cfg -> envs_ok h -> envs_ok h' -> m <= u64_max -> s <= u16_max ->
    append_only_in s h' ->
    get_itemized_storage cfg env (st_after cfg h) m s = Ok (hash, nonce, numbered 0 items) ->
    exists hash' nonce' more,
      get_itemized_storage cfg env (st_after cfg (h ++ h')) m s = Ok (hash', nonce', numbered 0 (items ++ more)).
Proof. exact append_only_lemma. Qed.
Print Assumptions C46_append_only_items_permanent.

Example C46_example :
  append_only_in 6 [stx 30 2 (ApplyItemActions 2 6 (toy_hash toy_storage (ItemLoc 2 6)) [Add [6]])] /\
  option_map snd (match get_itemized_storage toy_st (toy_view 31) (st_after toy_st (toy_st_history ++
    [stx 30 2 (ApplyItemActions 2 6 (toy_hash toy_storage (ItemLoc 2 6)) [Add [6]])])) 2 6 with Ok r => Some r | Err _ => None end)
  = Some [(0, [5]); (1, [6])] /\
  st_dispatch toy_st (toy_view 30) toy_storage (Signed 2) (ApplyItemActions 2 6 (toy_hash toy_storage (ItemLoc 2 6)) [Delete 0])
  = Err SUnsupportedOperationForSchema.
Proof.
  split. { repeat constructor. eexists. split; [vm_compute; reflexivity|done]. }
  split; vm_compute; reflexivity.
Qed.

(** ** C47, C48. What a change at a place requires. *)
Theorem C47_signature_required_needs_owner :
  forall cfg h x l i,
    sizes_ok cfg -> hashes_ok cfg -> envs_ok h -> env_ok (x_env x) -> loc_ok l ->
    v_schema (x_env x) (loc_schema l) = Some i -> set_signature_required (si_settings i) = true ->
    read cfg (st_after cfg (h ++ [x])) l <> read cfg (st_after cfg h) l ->
    sent_by_owner (x_env x) (x_origin x) (loc_msa l) \/ owner_signed cfg (x_env x) (x_call x) (loc_msa l).
Proof. exact signature_required_lemma. Qed.
Print Assumptions C47_signature_required_needs_owner.

Example C47_example :
  is_ok (st_dispatch toy_st (toy_view 30) toy_storage (Signed 2) (UpsertPage 2 7 0 0 [1])) = true /\
  is_ok (st_dispatch toy_st (toy_view 30) toy_storage (Signed 1) (UpsertPage 2 7 0 0 [1])) = false /\
  read toy_st (st_step toy_st toy_storage signed_write) (PageLoc 2 7 0) <> read toy_st toy_storage (PageLoc 2 7 0).
Proof. split; [vm_compute; reflexivity|]. split; [vm_compute; reflexivity|vm_compute; discriminate]. Qed.

Theorem C48_changes_are_authorised :
  forall cfg h x l,
    sizes_ok cfg -> hashes_ok cfg -> envs_ok h -> env_ok (x_env x) -> loc_ok l ->
    read cfg (st_after cfg (h ++ [x])) l <> read cfg (st_after cfg h) l ->
    sent_by_owner (x_env x) (x_origin x) (loc_msa l) \/
    sent_by_grantee (x_env x) (x_origin x) (loc_msa l) (loc_schema l) \/
    owner_signed cfg (x_env x) (x_call x) (loc_msa l).
Proof. exact authorised_lemma. Qed.
Print Assumptions C48_changes_are_authorised.

Example C48_example :
  st_dispatch toy_st (toy_view 30) toy_storage (Signed 7) (UpsertPage 2 5 3 (toy_hash toy_storage (PageLoc 2 5 3)) [1]) = Err SUnauthorizedDelegate /\
  is_ok (st_dispatch toy_st (toy_view 30) toy_storage (Signed 1) (UpsertPage 2 5 3 (toy_hash toy_storage (PageLoc 2 5 3)) [1])) = true.
Proof. split; vm_compute; reflexivity. Qed.

(** ** C49. The two queries return exactly what is stored. *)
Theorem C49_listing_exact :
  forall cfg h env m s r,
    sizes_ok cfg -> hashes_ok cfg -> key_hash_ok cfg -> envs_ok h -> m <= u64_max -> s <= u16_max ->
    get_paginated_storage cfg env (st_after cfg h) m s = Ok r ->
    NoDup (map (fun e => e.1.1.1) r) /\
    forall p hash nonce data, (p, hash, nonce, data) ∈ r <->
      p <= u16_max /\ read cfg (st_after cfg h) (PageLoc m s p) = Ok (Some {| pg_nonce := nonce; pg_data := data |}) /\
      hash = content_hash cfg (Some {| pg_nonce := nonce; pg_data := data |}).
Proof. exact listing_exact_lemma. Qed.
Print Assumptions C49_listing_exact.

Theorem C49_items_exact :
  forall cfg h env m s hash nonce l,
    sizes_ok cfg -> hashes_ok cfg -> envs_ok h -> m <= u64_max -> s <= u16_max ->
    get_itemized_storage cfg env (st_after cfg h) m s = Ok (hash, nonce, l) <->
    (exists i, v_schema env s = Some i /\ si_location i = Itemized) /\
    exists cur items, read cfg (st_after cfg h) (ItemLoc m s) = Ok cur /\ items_of cur items /\ l = numbered 0 items /\
      hash = content_hash cfg cur /\ nonce = match cur with Some p => pg_nonce p | None => 0 end.
Proof. exact items_exact_lemma. Qed.
Print Assumptions C49_items_exact.

Example C49_example :
  get_paginated_storage toy_st (toy_view 30) toy_storage 2 5 = Ok [(3, toy_hash toy_storage (PageLoc 2 5 3), 1, [1; 2; 3])].
Proof. vm_compute. reflexivity. Qed.

(** ** C98. The hash announced last for a place is the hash of what is there,
    and every event's previous hash is the one announced before. *)
Theorem C98_announced_hash_is_current :
  forall cfg h l,
    sizes_ok cfg -> hashes_ok cfg -> envs_ok h -> loc_ok l ->
    exists cur, read cfg (st_after cfg h) l = Ok cur /\ announced (st_events (st_after cfg h)) l = content_hash cfg cur.
Proof. exact announced_lemma. Qed.
Print Assumptions C98_announced_hash_is_current.

Theorem C98_events_chain :
  forall cfg h before e after,
    sizes_ok cfg -> hashes_ok cfg -> envs_ok h ->
    st_events (st_after cfg h) = before ++ e :: after -> event_prev e = announced before (event_loc e).
Proof. exact chain_lemma. Qed.
Print Assumptions C98_events_chain.

Example C98_example :
  announced (st_events toy_storage) (ItemLoc 2 4) = toy_hash toy_storage (ItemLoc 2 4) /\
  toy_hash toy_storage (ItemLoc 2 4) <> 0.
Proof. split; [vm_compute; reflexivity|vm_compute; discriminate]. Qed.

(** ** C93, storage payloads: the signed bytes determine the payload of a call
    of a given kind. *)
Theorem C93_storage_signature_binds_payload_partial :
  forall cfg c c' k s bytes e e' bytes',
    call_ok cfg c = true -> call_ok cfg c' = true -> call_kind c = call_kind c' ->
    signature_of c = Some (k, s, bytes, e) -> signature_of c' = Some (k, s, bytes', e') ->
    wrap_binary_data bytes = wrap_binary_data bytes' -> c = c'.
Proof. exact storage_signature_lemma. Qed.
Print Assumptions C93_storage_signature_binds_payload_partial.

(** C93, refuted between pallets: the bytes signed to delegate schema 4096 to
    MSA 65538 are also those of a write to page 0 of schema 16384, and a
    signature scheme that accepts nothing but the delegation payload lets
    anyone make that write. *)
Definition delegation_payload : AddProvider := {| ap_msa := 65538; ap_schemas := [4096]; ap_exp := 262150 |}.
Definition confused_write : UpsertPayloadV2 :=
  {| up2_schema := 16384; up2_page := 0; up2_hash := 0; up2_exp := 262144; up2_data := [6; 0; 4; 0] |}.
Theorem C93_delegation_as_write_refuted :
  add_provider_in_range delegation_payload /\
  enc_add_provider delegation_payload = enc_upsert_v2 confused_write /\
  exists env,
    env_ok env /\ v_block env = 262100 /\
    is_ok (st_dispatch (toy_hashes (fun s k bytes => (s =? 77) && (k =? 2) && bool_decide (bytes = wrap_binary_data (enc_add_provider delegation_payload))))
      env st_genesis (Signed 99) (UpsertPageWithSignatureV2 2 77 confused_write)) = true.
Proof.
  split; [repeat split; repeat constructor|]. split; [vm_compute; reflexivity|].
  exists {| v_env := toy_env 262100; v_msa := toy_state;
            v_schema := fun s => if s =? 16384 then Some {| si_model_type := AvroBinary; si_location := Paginated;
              si_settings := {| set_append_only := false; set_signature_required := true |} |} else None |}.
  split; [apply (reachable_env_ok toy_cfg toy_history); reflexivity|]. split; [reflexivity|]. vm_compute. reflexivity.
Qed.
Print Assumptions C93_delegation_as_write_refuted.

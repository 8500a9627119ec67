(** Properties C60-C63, C91, C105 and C106. Histories are arbitrary sequences of
    calls and beginnings of blocks, each call with an arbitrary origin and its own
    view of the MSA and schemas pallets. *)
From Verif Require Import Prelude Scale ScaleDec CommonTypes Utf8 SigModel MsaModel MsaSpec MsaProperties MgModel MgSpec MgPageProofs MgProofs MgFinal.

Definition mg_after (cfg : MgCfg) (h : list MgX) : MgState := mg_run cfg mg_genesis h.

(** ** A concrete history for the examples. MSA 1 (key 1) may write schemas 4 and
    5 for MSA 2 (keys 2 and 3). Schema 4 is on chain, schema 6 on IPFS. CIDs
    are a "b" and the bytes. *)
Definition toy_mg : MgCfg :=
  runtime_messages (fun t => match t with 98 :: b => Some b | _ => None end) (fun _ => true) (cons 98).
Definition mg_schema (s : N) : option SchemaInfo :=
  let mk l := Some {| si_model_type := AvroBinary; si_location := l; si_settings := {| set_append_only := false; set_signature_required := false |} |} in
  if s =? 4 then mk OnChain else if s =? 6 then mk IPFS else if s =? 7 then mk Paginated else None.
Definition mg_view : MgEnv := {| gv_env := toy_env 20; gv_msa := toy_state; gv_schema := mg_schema |}.
Definition post (who : N) (c : MgCall) : MgX := Call mg_view (Signed who) c.
Definition toy_posts : list MgX :=
  [NextBlock; post 2 (AddOnchainMessage None 4 [1]); post 2 (AddIpfsMessage 6 [98; 5; 6] 77); post 1 (AddOnchainMessage (Some 2) 4 [2; 3]);
   post 9 (AddOnchainMessage None 4 [4]); post 2 (AddOnchainMessage (Some 1) 4 [5]);
   NextBlock; post 3 (AddOnchainMessage None 4 [6])].
Definition resp (p i b : N) (s : option N) (pl : list N) : MessageResponse :=
  {| mr_provider := p; mr_index := i; mr_block := b; mr_source := s; mr_payload := Some pl; mr_cid := None; mr_length := None |}.
Example toy_posts_read :
  get_messages toy_mg (mg_after toy_mg toy_posts) 4 OnChain 1 = [resp 2 0 1 (Some 2) [1]; resp 1 2 1 (Some 2) [2; 3]]
  /\ get_messages toy_mg (mg_after toy_mg toy_posts) 4 OnChain 2 = [resp 2 0 2 (Some 2) [6]]
  /\ get_messages toy_mg (mg_after toy_mg toy_posts) 6 IPFS 1
     = [{| mr_provider := 2; mr_index := 1; mr_block := 1; mr_source := None; mr_payload := None; mr_cid := Some [98; 5; 6]; mr_length := Some 77 |}].
Proof. vm_compute. done. Qed.

(** ** C60: the messages of a block under a schema are the accepted posts, once
    each, in order, numbered by their place among all posts of the block. *)
Theorem C60_messages_of_block_partial cfg h schema loc block :
  g_max cfg <= u32_max -> typed h -> located schema loc h ->
  len (only (in_block block) (posts cfg h)) <= 65536 ->
  Forall2 (answers cfg) (only (under block schema) (posts cfg h)) (get_messages cfg (mg_after cfg h) schema loc block).
Proof. intros Hm. exact (complete_lemma cfg Hm h schema loc block). Qed.
Print Assumptions C60_messages_of_block_partial.

(** Without a bound on the number of posts this fails: of 65537 posts to one
    schema in one block, whoever makes them, at least one is lost. *)
Theorem C60_overflow_refuted cfg env who c n :
  g_max cfg <= u32_max -> N.of_nat n = 65537 -> is_ok (mg_dispatch cfg env mg_genesis (Signed who) c) = true ->
  let h := replicate n (Call env (Signed who) c) in
  forall loc, ~ Forall2 (answers cfg) (only (under 0 (call_schema c)) (posts cfg h)) (get_messages cfg (mg_after cfg h) (call_schema c) loc 0).
Proof. intros Hm Hn. exact (lost_lemma cfg Hm env who c n Hn). Qed.
Print Assumptions C60_overflow_refuted.

Theorem C60_at_most_65536 cfg h schema loc block :
  g_max cfg <= u32_max -> len (get_messages cfg (mg_after cfg h) schema loc block) <= 65536.
Proof. intros Hm. exact (count_lemma cfg Hm h schema loc block). Qed.
Print Assumptions C60_at_most_65536.

Example C60_example :
  g_max toy_mg <= u32_max /\ typed toy_posts /\ located 4 OnChain toy_posts /\ located 6 IPFS toy_posts
  /\ map po_seq (only (under 1 4) (posts toy_mg toy_posts)) = [0; 2] /\ len (only (in_block 1) (posts toy_mg toy_posts)) = 3
  /\ is_ok (mg_dispatch toy_mg mg_view mg_genesis (Signed 2) (AddOnchainMessage None 4 [1])) = true.
Proof.
  split; [vm_compute; discriminate|]. split.
  { intros env o s cid l H. unfold toy_posts, post in H. rewrite !elem_of_cons in H.
    destruct H as [H|[H|[H|[H|[H|[H|[H|[H|H]]]]]]]]; try discriminate; [injection H as _ _ _ _ ->; vm_compute; discriminate|inversion H]. }
  assert (Hv : forall env o c, Call env o c ∈ toy_posts -> env = mg_view).
  { intros env o c H. unfold toy_posts, post in H. rewrite !elem_of_cons in H.
    destruct H as [H|[H|[H|[H|[H|[H|[H|[H|H]]]]]]]]; try discriminate; try (by injection H as -> _ _); inversion H. }
  split; [intros env o c info H Hi; rewrite (Hv _ _ _ H) in Hi; by injection Hi as <-|].
  split; [intros env o c info H Hi; rewrite (Hv _ _ _ H) in Hi; by injection Hi as <-|].
  vm_compute. done.
Qed.

(** ** C61: a client that pages through a range of blocks and follows the answers
    receives every message of the range exactly once, in order. *)
Theorem C61_all_pages view r l n :
  paged (replicate n view) r l -> concat (map rs_content l) = requested view r.
Proof. exact (paged_const view r l n). Qed.
Print Assumptions C61_all_pages.

(** Also while the chain grows between the requests: [hs] is the chain at each
    request, of which the next one is a continuation by whole blocks. The client
    receives what the range holds at the last request. *)
Theorem C61_growing_chain cfg schema loc hs r l h :
  g_max cfg <= u32_max ->
  StronglySorted (fun h h' => exists g, h' = h ++ g /\ (g = [] \/ head g = Some NextBlock)) hs ->
  paged (map (fun h => get_messages cfg (mg_after cfg h) schema loc) hs) r l -> last hs = Some h ->
  concat (map rs_content l) = requested (get_messages cfg (mg_after cfg h) schema loc) r.
Proof. intros Hm. exact (chain_lemma cfg Hm schema loc hs r l h). Qed.
Print Assumptions C61_growing_chain.

(** Following the answers comes to an end, *)
Theorem C61_terminates view r : validate r = true -> exists n l, paged (replicate n view) r l.
Proof. exact (paged_exists view r). Qed.
Print Assumptions C61_terminates.

(** every page but the last is full, none is more than full, *)
Theorem C61_page_sizes views r l :
  paged views r l ->
  exists l' a, l = l' ++ [a] /\ Forall (fun a => len (rs_content a) = rq_size r /\ rs_has_next a = true) l'
    /\ len (rs_content a) <= rq_size r /\ rs_has_next a = false.
Proof. exact (paged_sizes views r l). Qed.
Print Assumptions C61_page_sizes.

(** and a request is answered iff its size and range are in bounds and the
    schema exists. *)
Theorem C61_answered_iff known view r :
  is_Some (get_messages_by_schema_id known view r)
  <-> known = true /\ 0 < rq_size r <= 10000 /\ rq_from r < rq_to r /\ rq_to r - rq_from r <= 50000.
Proof. exact (answered_iff known view r). Qed.
Print Assumptions C61_answered_iff.

Example C61_example :
  let view := get_messages toy_mg (mg_after toy_mg toy_posts) 4 OnChain in
  let r := {| rq_from := 0; rq_index := 0; rq_to := 5; rq_size := 2 |} in
  exists a1 a2, paged [view; view] r [a1; a2] /\ len (rs_content a1) = 2 /\ rs_next_block a1 = Some 2 /\ len (rs_content a2) = 1.
Proof.
  eexists _, _. split.
  - eapply Paged_more; [vm_compute; reflexivity|vm_compute; reflexivity|]. apply Paged_last; vm_compute; reflexivity.
  - vm_compute. done.
Qed.

(** ** C62: messages of past blocks never change. *)
Theorem C62_past_blocks cfg h1 h2 schema loc block :
  g_max cfg <= u32_max -> block < blocks h1 ->
  get_messages cfg (mg_after cfg (h1 ++ h2)) schema loc block = get_messages cfg (mg_after cfg h1) schema loc block.
Proof. intros Hm. exact (past_lemma cfg Hm h1 h2 schema loc block). Qed.
Print Assumptions C62_past_blocks.

(** Those of the current block stay in place while others are appended, if the
    block has at most 65536. Missing for the full claim: the bound. *)
Theorem C62_current_block_partial cfg h1 h2 schema loc block :
  g_max cfg <= u32_max -> typed (h1 ++ h2) -> located schema loc (h1 ++ h2) ->
  len (only (in_block block) (posts cfg (h1 ++ h2))) <= 65536 ->
  get_messages cfg (mg_after cfg h1) schema loc block `prefix_of` get_messages cfg (mg_after cfg (h1 ++ h2)) schema loc block.
Proof. intros Hm. exact (current_lemma cfg Hm h1 h2 schema loc block). Qed.
Print Assumptions C62_current_block_partial.

(** The bound is needed: the 65537th post replaces the 65536th. *)
Theorem C62_overwritten_refuted cfg env who s p1 p2 n :
  g_max cfg <= u32_max -> N.of_nat n = 65535 -> p1 <> p2 ->
  let c1 := AddOnchainMessage None s p1 in let c2 := AddOnchainMessage None s p2 in
  is_ok (mg_dispatch cfg env mg_genesis (Signed who) c1) = true ->
  is_ok (mg_dispatch cfg env mg_genesis (Signed who) c2) = true ->
  let h := replicate n (Call env (Signed who) c1) ++ [Call env (Signed who) c1] in
  exists r, r ∈ get_messages cfg (mg_after cfg h) s OnChain 0
    /\ r ∉ get_messages cfg (mg_after cfg (h ++ [Call env (Signed who) c2])) s OnChain 0.
Proof. intros Hm. exact (overwritten_response cfg Hm env who s p1 p2 n). Qed.
Print Assumptions C62_overwritten_refuted.

Example C62_example :
  1 < blocks toy_posts /\ [1] <> [2]
  /\ is_ok (mg_dispatch toy_mg mg_view mg_genesis (Signed 2) (AddOnchainMessage None 4 [1])) = true
  /\ is_ok (mg_dispatch toy_mg mg_view mg_genesis (Signed 2) (AddOnchainMessage None 4 [2])) = true.
Proof. vm_compute. done. Qed.

(** ** C63: every message that is read was posted in that block under that schema
    by a key of its provider, and if it names a source, the source is the provider
    or had granted the provider that schema at that block. *)
Theorem C63_attribution cfg h schema loc block r :
  g_max cfg <= u32_max -> r ∈ get_messages cfg (mg_after cfg h) schema loc block ->
  exists h1 h2 env who c,
    h = h1 ++ Call env (Signed who) c :: h2 /\ blocks h1 = block
    /\ is_ok (mg_dispatch cfg env (mg_after cfg h1) (Signed who) c) = true
    /\ call_schema c = schema /\ mr_block r = block /\ controls (gv_msa env) who (mr_provider r)
    /\ (forall d, mr_source r = Some d ->
          exists bh pl, c = AddOnchainMessage bh schema pl /\ mr_payload r = Some pl
            /\ ((bh = None /\ d = mr_provider r)
               \/ (bh = Some d /\ schema_ok {| e_block := block; e_max_schema := e_max_schema (gv_env env); e_has_handle := e_has_handle (gv_env env) |}
                                    (gv_msa env) (mr_provider r) d schema))).
Proof. intros Hm. exact (attribution_lemma cfg Hm h schema loc block r). Qed.
Print Assumptions C63_attribution.
Example C63_example : resp 1 2 1 (Some 2) [2; 3] ∈ get_messages toy_mg (mg_after toy_mg toy_posts) 4 OnChain 1.
Proof. rewrite (proj1 toy_posts_read). right. by left. Qed.

(** ** C105: when a post is accepted, and that the first of a block, and only the
    first, is announced. *)
Theorem C105_accepted_iff cfg env h o c :
  g_max cfg <= u32_max -> is_ok (mg_dispatch cfg env (mg_after cfg h) o c) = true <-> acceptable cfg env (blocks h) o c.
Proof. intros Hm. exact (accepted_after cfg Hm env h o c). Qed.
Print Assumptions C105_accepted_iff.

Theorem C105_announced_once cfg h :
  g_max cfg <= u32_max ->
  mg_events (mg_after cfg h) = if bool_decide (only (in_block (blocks h)) (posts cfg h) = []) then 0 else 1.
Proof. intros Hm. exact (events_lemma cfg Hm h). Qed.
Print Assumptions C105_announced_once.
Example C105_example :
  mg_events (mg_after toy_mg toy_posts) = 1 /\ mg_events (mg_after toy_mg [NextBlock]) = 0
  /\ acceptable toy_mg mg_view 20 (Signed 1) (AddOnchainMessage (Some 2) 4 [7]).
Proof.
  split; [done|]. split; [done|]. apply (accepted_iff toy_mg ltac:(vm_compute; discriminate) mg_view
    {| mg_block := 20; mg_index := 0; mg_messages := ∅; mg_events := 0 |}). vm_compute. done.
Qed.

(** ** C106: an IPFS post reads back with the same content: the length, and a CID
    of the same bytes (if decoding undoes encoding, in the multibase crate). *)
Theorem C106_ipfs_round_trip cfg env st who s cid length st' b :
  g_max cfg <= u32_max -> g_decode cfg (g_encode cfg b) = Some b -> length <= u32_max ->
  mg_dispatch cfg env st (Signed who) (AddIpfsMessage s cid length) = Ok st' -> g_decode cfg cid = Some b ->
  exists r, r ∈ get_messages cfg st' s IPFS (mg_block st) /\ mr_index r = mg_index st
    /\ mr_length r = Some length /\ (exists c', mr_cid r = Some c' /\ g_decode cfg c' = Some b)
    /\ controls (gv_msa env) who (mr_provider r).
Proof. intros Hm. exact (ipfs_lemma cfg Hm env st who s cid length st' b). Qed.
Print Assumptions C106_ipfs_round_trip.
Example C106_example :
  (forall l, g_decode toy_mg (g_encode toy_mg l) = Some l) /\
  is_ok (mg_dispatch toy_mg mg_view mg_genesis (Signed 2) (AddIpfsMessage 6 [98; 5; 6] 77)) = true.
Proof. split; [done|vm_compute; done]. Qed.

(** ** C91: the migration keeps every message. *)
Theorem C91_messages_kept cfg st st' block schema l loc :
  mo_version st < 2 -> loc = OnChain \/ loc = IPFS -> mg_messages st' = mo_new (migrate_messages st) ->
  mo_old st !! (block, schema) = Some l -> StronglySorted (fun x y => om_index x < om_index y) l ->
  (forall i, mo_new st !! (block, schema, i) = None) ->
  get_messages cfg st' schema loc block
  = map (fun m => map_to_response cfg {| ms_payload := om_payload m; ms_provider := om_provider m; ms_source := om_source m |} block loc (om_index m)) l.
Proof. exact (migrate_lemma cfg st st' block schema l loc). Qed.
Print Assumptions C91_messages_kept.

Theorem C91_others_untouched cfg st st' st0 block schema loc :
  mg_messages st' = mo_new (migrate_messages st) -> mg_messages st0 = mo_new st -> mo_old st !! (block, schema) = None ->
  get_messages cfg st' schema loc block = get_messages cfg st0 schema loc block.
Proof. exact (migrate_other' cfg st st' st0 block schema loc). Qed.
Print Assumptions C91_others_untouched.

Theorem C91_once st :
  migrate_messages (migrate_messages st) = migrate_messages st
  /\ (mo_version st < 2 -> mo_old (migrate_messages st) = ∅ /\ mo_version (migrate_messages st) = 2)
  /\ (2 <= mo_version st -> migrate_messages st = st).
Proof. exact (migrate_once st). Qed.
Print Assumptions C91_once.

Definition toy_old : MgOld :=
  {| mo_old := {[ (1, 4) := [{| om_payload := [1]; om_provider := 2; om_source := Some 2; om_index := 0 |};
                             {| om_payload := [2]; om_provider := 1; om_source := Some 2; om_index := 3 |}] ]};
     mo_new := ∅; mo_version := 1 |}.
Example C91_example :
  get_messages toy_mg {| mg_block := 9; mg_index := 0; mg_messages := mo_new (migrate_messages toy_old); mg_events := 0 |} 4 OnChain 1
  = [resp 2 0 1 (Some 2) [1]; resp 1 3 1 (Some 2) [2]].
Proof. vm_compute. done. Qed.

(** Property C128, and what the runtime's hashes (Twox128 for keys, 32 bits of
    XXH64 for contents) mean for C44 and C49. *)
From Verif Require Import Prelude Scale ScaleDec CommonTypes SigModel MsaModel MsaSpec MsaProperties XxHash
  StModel StSpec StPayloadProofs StFinal StHashProofs StProperties.

(** ** C49 in the runtime. Twox128 does not collide on the 65536 schema ids
    (proved, not assumed), so only Blake2-128 is left to assume something about. *)
Theorem C49_schema_keys_differ : forall blake verify, key_hash_ok (st_runtime blake verify).
Proof. exact runtime_key_hash. Qed.
Print Assumptions C49_schema_keys_differ.

Theorem C49_runtime_listing_exact :
  forall blake verify h env m s r, let cfg := st_runtime blake verify in
    blake_ok blake -> envs_ok h -> m <= u64_max -> s <= u16_max ->
    get_paginated_storage cfg env (st_after cfg h) m s = Ok r ->
    NoDup (map (fun e => e.1.1.1) r) /\
    forall p hash nonce data, (p, hash, nonce, data) ∈ r <->
      p <= u16_max /\ read cfg (st_after cfg h) (PageLoc m s p) = Ok (Some {| pg_nonce := nonce; pg_data := data |}) /\
      hash = content_hash cfg (Some {| pg_nonce := nonce; pg_data := data |}).
Proof.
  intros blake verify h env m s r cfg Hb. apply C49_listing_exact; [apply runtime_sizes|by apply runtime_hashes|apply runtime_key_hash].
Qed.
Print Assumptions C49_runtime_listing_exact.

(** ** C128, as far as it holds. A call that names the hash of the content [p]
    is accepted on a page only if the page holds [p], nonce included, unless
    the first 32 bits of the hash coincide. *)
Theorem C128_only_on_expected_content_partial :
  forall cfg h env o c rq p q,
    sizes_ok cfg -> hashes_ok cfg -> envs_ok h -> env_ok env ->
    request env c = Some rq -> rq_target rq = content_hash cfg (Some p) ->
    read cfg (st_after cfg h) (rq_loc rq) = Ok (Some q) ->
    is_ok (st_dispatch cfg env (st_after cfg h) o c) = true ->
    pg_nonce p <= u16_max -> pg_nonce q <= u16_max -> pg_data p <> [] -> pg_data q <> [] ->
    (let a := enc_u16 (pg_nonce p) ++ pg_data p in let b := enc_u16 (pg_nonce q) ++ pg_data q in
     f_page cfg a / 4294967296 = f_page cfg b / 4294967296 -> a = b) ->
    q = p.
Proof. exact seen_only_lemma. Qed.
Print Assumptions C128_only_on_expected_content_partial.

(** C128, refuted: whoever may write a page can write any text of at most 985
    bytes, followed by at most 39 bytes, so that the page gets any content hash
    they like. XXH64 is not a cryptographic hash. *)
Theorem C128_hash_chosen_refuted :
  forall blake verify h env o m s p target data st' text hash, let cfg := st_runtime blake verify in
    blake_ok blake -> envs_ok h -> env_ok env ->
    st_dispatch cfg env (st_after cfg h) o (UpsertPage m s p target data) = Ok st' ->
    len text <= 985 -> Forall (fun b => b < 256) text -> hash <= u32_max ->
    exists more st2 page,
      st_dispatch cfg env (st_after cfg h) o (UpsertPage m s p target (text ++ more)) = Ok st2 /\
      read cfg st2 (PageLoc m s p) = Ok (Some page) /\ pg_data page = text ++ more /\ content_hash cfg (Some page) = hash.
Proof. intros blake verify h env o m s p target data st' text hash cfg Hb. by apply chosen_hash_lemma. Qed.
Print Assumptions C128_hash_chosen_refuted.

(** C128, refuted for item lists, append-only ones included: whoever may add an
    item of 39 bytes can add one of at most 39 bytes that gives the list any
    content hash they like. *)
Theorem C128_item_hash_chosen_refuted :
  forall blake verify h env o m s target d st' hash, let cfg := st_runtime blake verify in
    blake_ok blake -> envs_ok h -> env_ok env ->
    st_dispatch cfg env (st_after cfg h) o (ApplyItemActions m s target [Add d]) = Ok st' ->
    39 <= len d -> hash <= u32_max ->
    exists it st2 page, len it <= 39 /\
      st_dispatch cfg env (st_after cfg h) o (ApplyItemActions m s target [Add it]) = Ok st2 /\
      read cfg st2 (ItemLoc m s) = Ok (Some page) /\ content_hash cfg (Some page) = hash.
Proof. intros blake verify h env o m s target d st' hash cfg Hb. by apply chosen_item_hash_lemma. Qed.
Print Assumptions C128_item_hash_chosen_refuted.

(** C128 and C44, refuted: a payload for a page, signed or not, that was
    accepted once ([h0]) is accepted again, as long as it has not expired, after
    one write by anyone who may write that page. *)
Theorem C128_replay_forced_refuted :
  forall blake verify h0 h env env' o o' c rq m s p target data st', let cfg := st_runtime blake verify in
    blake_ok blake -> envs_ok h0 -> envs_ok h -> env_ok env -> env_ok env' ->
    request env' c = Some rq -> rq_loc rq = PageLoc m s p ->
    is_ok (st_dispatch cfg env' (st_after cfg h0) o' c) = true ->
    st_dispatch cfg env (st_after cfg h) o (UpsertPage m s p target data) = Ok st' ->
    exists data' st2,
      st_dispatch cfg env (st_after cfg h) o (UpsertPage m s p target data') = Ok st2 /\
      is_ok (st_dispatch cfg env' st2 o' c) = true.
Proof.
  intros blake verify h0 h env env' o o' c rq m s p target data st' cfg Hb. by apply replay_forced_lemma.
Qed.
Print Assumptions C128_replay_forced_refuted.

(** A concrete run with the real content hash. The provider writes page 0; the
    owner's signed write replaces it; the provider writes 14 bytes that have the
    hash of the first content; the owner's payload is accepted again. *)
Definition real_st : StCfg := st_runtime (pad 16) (fun s k _ => s mod 1000 =? k).
Definition first_write : StStep := stx 30 1 (UpsertPage 2 5 0 0 [1; 2; 3]).
Definition signed_once : StStep :=
  stx 31 99 (UpsertPageWithSignatureV2 3 3 {| up2_schema := 5; up2_page := 0; up2_hash := 828222069; up2_exp := 200; up2_data := [9; 9] |}).
Definition real_1 : StState := st_step real_st st_genesis first_write.
Definition real_2 : StState := st_step real_st real_1 signed_once.
Definition forged : StStep :=
  stx 32 1 (UpsertPage 2 5 0 (match read real_st real_2 (PageLoc 2 5 0) with Ok p => content_hash real_st p | Err _ => 0 end)
    [102; 111; 114; 103; 101; 100; 85; 35; 208; 23; 68; 5; 161; 97]).
Definition real_3 : StState := st_step real_st real_2 forged.
Example C128_example :
  read real_st real_1 (PageLoc 2 5 0) = Ok (Some {| pg_nonce := 1; pg_data := [1; 2; 3] |}) /\
  read real_st real_2 (PageLoc 2 5 0) = Ok (Some {| pg_nonce := 2; pg_data := [9; 9] |}) /\
  is_ok (st_dispatch real_st (toy_view 33) real_2 (Signed 99) (x_call signed_once)) = false /\
  read real_st real_3 (PageLoc 2 5 0) = Ok (Some {| pg_nonce := 3; pg_data := [102; 111; 114; 103; 101; 100; 85; 35; 208; 23; 68; 5; 161; 97] |}) /\
  read real_st (st_step real_st real_3 signed_once) (PageLoc 2 5 0) = Ok (Some {| pg_nonce := 4; pg_data := [9; 9] |}).
Proof. repeat (split; [vm_compute; reflexivity|]); vm_compute; reflexivity. Qed.
(** The provider adds items; the second brings back the hash of the first list. *)
Definition items_1 : StState := st_step real_st st_genesis (stx 30 1 (ApplyItemActions 2 4 0 [Add [1; 2; 3]])).
Example C128_items_example :
  let hash p := match p with Ok q => content_hash real_st q | Err _ => 0 end in
  let h1 := hash (read real_st items_1 (ItemLoc 2 4)) in
  let st2 := st_step real_st items_1 (stx 31 1 (ApplyItemActions 2 4 h1 [Add [0; 0; 0; 0; 0; 0; 0; 111; 14; 191; 176; 240; 94; 236; 87]])) in
  h1 <> 0 /\ read real_st st2 (ItemLoc 2 4) <> read real_st items_1 (ItemLoc 2 4) /\ hash (read real_st st2 (ItemLoc 2 4)) = h1.
Proof. split; [vm_compute; discriminate|]. split; [vm_compute; discriminate|]. vm_compute. reflexivity. Qed.
Example C128_hypotheses :
  blake_ok (pad 16) /\ envs_ok [first_write; signed_once] /\
  content_hash real_st (Some {| pg_nonce := 1; pg_data := [1; 2; 3] |}) = 828222069 /\
  content_hash real_st (Some {| pg_nonce := 2; pg_data := [9; 9] |}) <> 828222069.
Proof.
  split. { destruct (toy_ok (fun _ _ _ => true)) as (_ & Hh & _). destruct Hh as (H1 & H2 & _). split; [exact H1|exact H2]. }
  split; [repeat constructor; apply toy_view_ok|]. split; [vm_compute; reflexivity|vm_compute; discriminate].
Qed.

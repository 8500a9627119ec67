(** The last steps to the message properties. *)
From Verif Require Import Prelude Scale ScaleDec CommonTypes Utf8 Utf8Proofs SigModel MsaModel MsaSpec MgModel MgSpec MgPageProofs MgProofs.

Section final.
Variable cfg : MgCfg.
Hypothesis Hmax : g_max cfg <= u32_max.

Lemma answers_len h s loc b : Forall2 (answers cfg) (only (under b s) (posts cfg h)) (get_messages cfg (mg_run cfg mg_genesis h) s loc b) ->
  len (only (under b s) (posts cfg h)) <= 65536.
Proof. intros H. apply Forall2_length in H. pose proof (count_lemma cfg Hmax h s loc b). unfold len in *. lia. Qed.

Lemma chain_lemma s loc (hs : list (list MgX)) r l h :
  StronglySorted (fun h h' => exists g, h' = h ++ g /\ (g = [] \/ head g = Some NextBlock)) hs ->
  paged (map (fun h => get_messages cfg (mg_run cfg mg_genesis h) s loc) hs) r l -> last hs = Some h ->
  concat (map rs_content l) = requested (get_messages cfg (mg_run cfg mg_genesis h) s loc) r.
Proof.
  intros Hs Hp Hl. eapply paged_content; [exact Hp| |].
  - clear -Hs Hmax. induction Hs as [|h0 hs Hs IH Hf]; cbn [map]; constructor; [done|].
    rewrite Forall_forall in Hf. apply Forall_forall. intros v (h' & -> & Hin)%elem_of_list_fmap.
    destruct (Hf h' Hin) as (g & -> & [->|Hg]); exists (blocks h0).
    + rewrite app_nil_r. split; [done|]. intros b Hb. by apply future_lemma.
    + apply grown_lemma; [done| |done]. by rewrite Hg.
  - clear Hp. apply last_Some in Hl as [hs' ->]. rewrite map_app. cbn. apply last_snoc.
Qed.

Lemma overwritten_response env who s p1 p2 n : N.of_nat n = 65535 -> p1 <> p2 ->
  let c1 := AddOnchainMessage None s p1 in let c2 := AddOnchainMessage None s p2 in
  is_ok (mg_dispatch cfg env mg_genesis (Signed who) c1) = true ->
  is_ok (mg_dispatch cfg env mg_genesis (Signed who) c2) = true ->
  let h := replicate n (Call env (Signed who) c1) ++ [Call env (Signed who) c1] in
  exists r, r ∈ get_messages cfg (mg_run cfg mg_genesis h) s OnChain 0
    /\ r ∉ get_messages cfg (mg_run cfg mg_genesis (h ++ [Call env (Signed who) c2])) s OnChain 0.
Proof.
  intros Hn Hne c1 c2 H1 H2 h.
  destruct (overwritten_lemma cfg Hmax env who c1 c2 OnChain n Hn ltac:(by left) eq_refl H1 H2) as (m1 & m2 & (_ & Hs1 & _) & (_ & Hs2 & _) & L1 & L2).
  exists (map_to_response cfg m1 0 OnChain 65535). split.
  - apply get_elem. split; [by left|]. by exists 65535, m1.
  - intros (_ & i & m & Hm & Heq)%get_elem. assert (i = 65535) as -> by (apply (f_equal mr_index) in Heq; rewrite !resp_index in Heq; done).
    cbn [call_schema c1] in L2. fold h in L2. rewrite L2 in Hm. injection Hm as <-.
    apply (f_equal mr_payload) in Heq. cbn [map_to_response mr_payload] in Heq. congruence.
Qed.

Lemma lost_lemma env who c n : N.of_nat n = 65537 -> is_ok (mg_dispatch cfg env mg_genesis (Signed who) c) = true ->
  forall loc, ~ Forall2 (answers cfg) (only (under 0 (call_schema c)) (posts cfg (replicate n (Call env (Signed who) c))))
    (get_messages cfg (mg_run cfg mg_genesis (replicate n (Call env (Signed who) c))) (call_schema c) loc 0).
Proof.
  intros Hn H loc HF. apply answers_len in HF. unfold posts in HF. rewrite (posts_repeat cfg Hmax) in HF by done. lia.
Qed.

Lemma ipfs_lemma env st who s cid length st' b :
  g_decode cfg (g_encode cfg b) = Some b -> length <= u32_max ->
  mg_dispatch cfg env st (Signed who) (AddIpfsMessage s cid length) = Ok st' -> g_decode cfg cid = Some b ->
  exists r, r ∈ get_messages cfg st' s IPFS (mg_block st) /\ mr_index r = mg_index st
    /\ mr_length r = Some length /\ (exists c', mr_cid r = Some c' /\ g_decode cfg c' = Some b)
    /\ controls (gv_msa env) who (mr_provider r).
Proof.
  intros Hrt Hlen H Hb. apply (dispatch_ok cfg Hmax) in H as (w & m & [= <-] & -> & Hst & _).
  specialize (Hst 0 0) as (Hc & _ & b' & Hb' & Hpl & Hl). cbn in Hc, Hb', Hpl. assert (b' = b) as -> by congruence.
  exists (map_to_response cfg m (mg_block st) IPFS (mg_index st)). split.
  - apply get_elem. split; [by right|]. exists (mg_index st), m. split; [|done]. cbn. apply lookup_insert.
  - rewrite resp_index. unfold map_to_response, dec_offchain. rewrite Hpl. unfold enc_offchain.
    rewrite dec_bounded_enc by (try done; lia). unfold enc_u32. cbn [le_bytes].
    match goal with |- context [le_val ?x] => change (le_val x) with (le_val (le_bytes 4 length)) end.
    rewrite le_val_bytes by (change (256 ^ N.of_nat 4) with 4294967296; unfold u32_max in Hlen; lia).
    cbn [default mr_length mr_cid mr_provider]. repeat (split; [done|]). split; [|done]. by exists (g_encode cfg b).
Qed.
End final.

Lemma answered_iff known view r :
  is_Some (get_messages_by_schema_id known view r)
  <-> known = true /\ 0 < rq_size r <= 10000 /\ rq_from r < rq_to r /\ rq_to r - rq_from r <= 50000.
Proof.
  unfold get_messages_by_schema_id. rewrite <- validate_iff. destruct (validate r), known; split; try done; try (by intros [? ?]); try (by intros []).
Qed.
Lemma accepted_after cfg (Hm : g_max cfg <= u32_max) env h o c :
  is_ok (mg_dispatch cfg env (mg_run cfg mg_genesis h) o c) = true <-> acceptable cfg env (blocks h) o c.
Proof. rewrite (accepted_iff cfg Hm), (run_block cfg Hm). done. Qed.
Lemma migrate_other' cfg st st' st0 block schema loc :
  mg_messages st' = mo_new (migrate_messages st) -> mg_messages st0 = mo_new st -> mo_old st !! (block, schema) = None ->
  get_messages cfg st' schema loc block = get_messages cfg st0 schema loc block.
Proof. intros H1 H2 H3. exact (migrate_other cfg st st' block schema loc H1 H3 st0 H2). Qed.
Lemma migrate_once st :
  migrate_messages (migrate_messages st) = migrate_messages st
  /\ (mo_version st < 2 -> mo_old (migrate_messages st) = ∅ /\ mo_version (migrate_messages st) = 2)
  /\ (2 <= mo_version st -> migrate_messages st = st).
Proof.
  split; [apply migrate_twice|]. split; [apply migrate_end|]. intros H. unfold migrate_messages.
  by replace (mo_version st <? 2) with false by lia.
Qed.

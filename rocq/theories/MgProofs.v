(** Proofs about the messages pallet. *)
From Verif Require Import Prelude Scale ScaleDec CommonTypes Utf8 Utf8Proofs SigModel MsaModel MsaSpec MgModel MgSpec.

(** ** Acceptance *)
Lemma prefix_size_compact n : n <= u32_max -> len (compact n) = prefix_size n.
Proof.
  intros H. unfold u32_max in H. unfold compact, prefix_size, len.
  destruct (n <? 64); [done|]. destruct (n <? 16384); [by rewrite le_bytes_length|].
  destruct (n <? 1073741824) eqn:E; [by rewrite le_bytes_length|].
  rewrite byte_len_u32 by lia. cbn [length]. rewrite le_bytes_length. done.
Qed.
Lemma prefix_size_ge n : 1 <= prefix_size n.
Proof. unfold prefix_size. repeat destruct (_ <? _); lia. Qed.
Lemma compact_len_large n : u32_max < n -> u32_max < len (compact n) + n.
Proof. lia. Qed.
Lemma offchain_len b l : len (enc_offchain b l) = len (compact (len b)) + len b + 4.
Proof. unfold enc_offchain, enc_bytes, enc_u32. rewrite !len_app. unfold len at 4. rewrite le_bytes_length. lia. Qed.

Lemma utf8_first c s : exists b l, utf8 (c :: s) = b :: l /\ (c < 128 -> b = c /\ l = utf8 s) /\ (128 <= c -> 128 <= b).
Proof.
  change (utf8 (c :: s)) with (utf8_char c ++ utf8 s). unfold utf8_char.
  destruct (c <? 128) eqn:E1; [exists c, (utf8 s); split; [done|split; [done|lia]]|].
  destruct (c <? 2048); [|destruct (c <? 65536)]; cbn [app]; eexists _, _; (split; [reflexivity|]); lia.
Qed.
Lemma utf8_qm s : take 2 (utf8 s) = [81; 109] <-> take 2 s = [81; 109].
Proof.
  destruct s as [|c s]; [done|].
  destruct (utf8_first c s) as (b & l & -> & H1 & H2). cbn [take].
  destruct (N.lt_ge_cases c 128) as [Hc|Hc].
  2:{ specialize (H2 Hc). split; intros [= ?]; lia. }
  destruct (H1 Hc) as [-> ->].
  destruct s as [|c' s]; [done|].
  destruct (utf8_first c' s) as (b' & l' & -> & H1' & H2'). 
  destruct (N.lt_ge_cases c' 128) as [Hc'|Hc'].
  - destruct (H1' Hc') as [-> ->]. done.
  - specialize (H2' Hc'). split; intros [= ?]; lia.
Qed.

Section proofs.
Variable cfg : MgCfg.
Hypothesis Hmax : g_max cfg <= u32_max.

Lemma validate_cid_ok cid b : validate_cid cfg cid = Ok b <-> cid_bytes cfg cid b.
Proof.
  unfold validate_cid, cid_bytes. split.
  - intros H. destruct (from_utf8 cid) as [s|] eqn:E; [|done]. apply utf8_from in E as [Hs <-].
    destruct (2 <? len (utf8 s)) eqn:E1; [|done]. destruct (bool_decide (take 2 s = [81; 109])) eqn:E2; [done|].
    apply bool_decide_eq_false in E2. rewrite <- utf8_qm in E2. cbn [negb] in H.
    destruct (g_decode cfg (utf8 s)) as [b'|] eqn:E3; [|done]. destruct (g_cid_ok cfg b') eqn:E4; [|done].
    injection H as <-. split; [by exists s|]. split; [lia|]. done.
  - intros ((s & Hs & ->) & H1 & H2 & H3 & H4). rewrite from_utf8_utf8 by done.
    replace (2 <? len (utf8 s)) with true by lia. rewrite utf8_qm in H2. rewrite bool_decide_eq_false_2 by done.
    cbn [negb]. by rewrite H3, H4.
Qed.

Lemma find_ok env k m : find_msa_id env k = Ok m <-> controls (gv_msa env) k m.
Proof.
  unfold find_msa_id, ensure_valid_msa_key, controls. destruct (ms_keys (gv_msa env) !! k); split; try done; by intros [= ->].
Qed.

(** What a call stores. *)
Definition stores (p : Post) (m : Message) : Prop :=
  controls (gv_msa (po_env p)) (po_who p) (ms_provider m)
  /\ match po_call p with
     | AddOnchainMessage behalf s payload =>
         ms_payload m = payload /\ ms_source m = Some (default (ms_provider m) behalf)
     | AddIpfsMessage _ cid length =>
         ms_source m = None /\ exists b, g_decode cfg cid = Some b /\ ms_payload m = enc_offchain b length /\ len b <= g_max cfg
     end.

Definition posted (st : MgState) (s : N) (m : Message) : MgState :=
  {| mg_block := mg_block st; mg_index := sat_add u16_max (mg_index st) 1;
     mg_messages := <[(mg_block st, s, mg_index st) := m]> (mg_messages st);
     mg_events := if mg_index st =? 0 then mg_events st + 1 else mg_events st |}.
Lemma posted_eq st pr so pl s :
  (let (st', first) := add_message st pr so pl s in Ok (E := MgErr) (deposit_if first st'))
  = Ok (posted st s {| ms_payload := pl; ms_provider := pr; ms_source := so |}).
Proof. unfold add_message, deposit_if, posted. cbn. by destruct (mg_index st =? 0). Qed.

Lemma dispatch_ok env st o c st' : mg_dispatch cfg env st o c = Ok st' ->
  exists who m, o = Signed who /\ st' = posted st (call_schema c) m
    /\ (forall b q, stores {| po_block := b; po_seq := q; po_env := env; po_who := who; po_call := c |} m)
    /\ acceptable cfg env (mg_block st) o c.
Proof.
  destruct o as [who|]; [|done]. destruct c as [s cid l|b s pl]; cbn [mg_dispatch]; unfold add_ipfs_message, add_onchain_message; intros H.
  - destruct (validate_cid cfg cid) as [bs|] eqn:Hv; [|done]. apply validate_cid_ok in Hv.
    destruct (len (enc_offchain bs l) <=? g_max cfg) eqn:Hl; [|done]. rewrite offchain_len in Hl.
    destruct (gv_schema env s) as [info|] eqn:Hs; [|done].
    destruct (bool_decide (si_location info = IPFS)) eqn:Hloc; [|done]. apply bool_decide_eq_true in Hloc.
    destruct (find_msa_id env who) as [m|] eqn:Hm; [|done]. apply find_ok in Hm.
    rewrite posted_eq in H. injection H as <-. eexists who, _. split; [done|]. split; [reflexivity|]. split.
    + intros b q. unfold stores. cbn. split; [done|]. split; [done|]. exists bs. unfold cid_bytes in Hv. split; [apply Hv|]. split; [done|lia].
    + exists who, m, info. repeat (split; [done|]). exists bs. split; [done|].
      rewrite <- prefix_size_compact; lia.
  - destruct (len pl <=? g_max cfg) eqn:Hl; [|done].
    destruct (gv_schema env s) as [info|] eqn:Hs; [|done].
    destruct (bool_decide (si_location info = OnChain)) eqn:Hloc; [|done]. apply bool_decide_eq_true in Hloc.
    destruct (find_msa_id env who) as [m|] eqn:Hm; [|done]. apply find_ok in Hm.
    destruct b as [d|].
    + destruct (ensure_valid_schema_grant _ _ _ _ _ _) as [u|] eqn:Hg; [|done].
      rewrite posted_eq in H. injection H as <-. eexists who, _. split; [done|]. split; [reflexivity|]. split; [done|].
      exists who, m, info. repeat (split; [done|]). split; [lia|]. intros d' [= <-]. unfold schema_ok.
      change (is_ok (ensure_valid_schema_grant (msa_env st env) (gv_msa env) m d s (mg_block st)) = true). by rewrite Hg.
    + rewrite posted_eq in H. injection H as <-. eexists who, _. split; [done|]. split; [reflexivity|]. split; [done|].
      exists who, m, info. repeat (split; [done|]). split; [lia|]. done.
Qed.

Lemma accepted_iff env st o c : is_ok (mg_dispatch cfg env st o c) = true <-> acceptable cfg env (mg_block st) o c.
Proof.
  split.
  - destruct (mg_dispatch cfg env st o c) as [st'|] eqn:E; [|done]. intros _. by apply dispatch_ok in E as (?&?&?&?&?&?).
  - intros (who & m & info & -> & Hm & Hs & H). apply find_ok in Hm. cbn [mg_dispatch]. destruct c as [s cid l|b s pl]; cbn [call_schema] in Hs.
    + destruct H as (Hloc & bs & Hc & Hl). unfold add_ipfs_message. apply validate_cid_ok in Hc. rewrite Hc.
      assert (len (enc_offchain bs l) <=? g_max cfg = true) as ->.
      { rewrite offchain_len, prefix_size_compact; lia. }
      rewrite Hs, bool_decide_eq_true_2 by done. rewrite Hm, posted_eq. done.
    + destruct H as (Hloc & Hl & Hd). unfold add_onchain_message. replace (len pl <=? g_max cfg) with true by lia.
      rewrite Hs, bool_decide_eq_true_2 by done. rewrite Hm. destruct b as [d|].
      * specialize (Hd d eq_refl). unfold schema_ok in Hd. unfold msa_env.
        cbn [e_block] in Hd. destruct (ensure_valid_schema_grant _ _ _ _ _ _); [|done]. by rewrite posted_eq.
      * by rewrite posted_eq.
Qed.

(** ** Histories *)
Lemma blocks_app h1 h2 : blocks (h1 ++ h2) = blocks h1 + blocks h2.
Proof. induction h1 as [|[|env o c] h1 IH]; cbn [blocks app]; lia. Qed.
Lemma step_block st x : mg_block (mg_step cfg st x) = mg_block st + blocks [x].
Proof.
  destruct x as [|env o c]; cbn [mg_step blocks mg_next_block mg_block]; [lia|].
  destruct (mg_dispatch cfg env st o c) as [st'|] eqn:E; [|lia]. apply dispatch_ok in E as (who & m & _ & -> & _). cbn. lia.
Qed.
Lemma run_app st h1 h2 : mg_run cfg st (h1 ++ h2) = mg_run cfg (mg_run cfg st h1) h2.
Proof. unfold mg_run. apply fold_left_app. Qed.
Lemma run_block st h : mg_block (mg_run cfg st h) = mg_block st + blocks h.
Proof.
  revert st; induction h as [|x h IH]; intros st; [cbn; lia|].
  change (mg_run cfg st (x :: h)) with (mg_run cfg (mg_step cfg st x) h). rewrite IH, step_block.
  change (x :: h) with ([x] ++ h). rewrite blocks_app. lia.
Qed.

(** The posts kept under a key: those whose number, cut at 65535, is the index. *)
Definition at_key (b s i : N) (p : Post) : bool := under b s p && (N.min (po_seq p) 65535 =? i).

Lemma last_filter_cons f (p : Post) l : last (only f (p :: l)) = match last (only f l) with Some q => Some q | None => if f p then Some p else None end.
Proof.
  unfold only. cbn [List.filter]. destruct (f p); [|by destruct (last (List.filter f l))].
  rewrite last_cons. done.
Qed.

Lemma posts_from_ge h : forall st b q p, p ∈ posts_from cfg st b q h -> b < po_block p \/ (po_block p = b /\ q <= po_seq p).
Proof.
  induction h as [|x h IH]; intros st b q p; cbn [posts_from]; [intros H; inversion H|].
  destruct x as [|env o c].
  - intros H. apply IH in H. lia.
  - destruct o as [who|]; [|apply IH]. destruct (mg_dispatch cfg env st (Signed who) c); [|apply IH].
    intros [->|H]%elem_of_cons; [cbn; lia|]. apply IH in H. lia.
Qed.

Lemma run_lookup h : forall st b q, mg_block st = b -> mg_index st = N.min q 65535 -> forall kb ks ki,
  match last (only (at_key kb ks ki) (posts_from cfg st b q h)) with
  | Some p => exists m, mg_messages (mg_run cfg st h) !! (kb, ks, ki) = Some m /\ stores p m
  | None => mg_messages (mg_run cfg st h) !! (kb, ks, ki) = mg_messages st !! (kb, ks, ki)
  end.
Proof.
  induction h as [|x h IH]; intros st b q Hb Hq kb ks ki; [done|].
  change (mg_run cfg st (x :: h)) with (mg_run cfg (mg_step cfg st x) h).
  destruct x as [|env o c]; cbn [posts_from].
  - specialize (IH (mg_step cfg st NextBlock) (b + 1) 0). apply IH; cbn; [by rewrite Hb|done].
  - destruct (mg_dispatch cfg env st o c) as [st'|] eqn:E.
    2:{ assert (Hst : mg_step cfg st (Call env o c) = st) by (cbn; by rewrite E). rewrite Hst.
        destruct o; rewrite ?E; by apply IH. }
    assert (Hst : mg_step cfg st (Call env o c) = st') by (cbn; by rewrite E). rewrite Hst.
    pose proof E as E0. apply dispatch_ok in E0 as (who & m & -> & -> & Hm & _). rewrite E.
    specialize (IH (posted st (call_schema c) m) b (q + 1)). specialize (IH Hb).
    assert (Hi : mg_index (posted st (call_schema c) m) = N.min (q + 1) 65535).
    { cbn. rewrite Hq. unfold sat_add, u16_max. lia. }
    specialize (IH Hi kb ks ki). rewrite last_filter_cons. destruct (last _) as [p|]; [done|].
    rewrite IH. cbn [mg_messages posted]. unfold at_key at 1, under. cbn [po_block po_call po_seq].
    destruct ((b =? kb) && (call_schema c =? ks) && (N.min q 65535 =? ki)) eqn:Ek.
    + rewrite !andb_true_iff in Ek. destruct Ek as [[E1 E2] E3]. apply N.eqb_eq in E1, E2, E3. subst kb ks ki.
      exists m. split; [|by apply Hm]. rewrite Hb, Hq. apply lookup_insert.
    + rewrite lookup_insert_ne; [done|]. intros [= <- <- <-]. rewrite Hb, Hq, !N.eqb_refl in Ek. done.
Qed.

Lemma genesis_lookup h kb ks ki :
  match last (only (at_key kb ks ki) (posts cfg h)) with
  | Some p => exists m, mg_messages (mg_run cfg mg_genesis h) !! (kb, ks, ki) = Some m /\ stores p m
  | None => mg_messages (mg_run cfg mg_genesis h) !! (kb, ks, ki) = None
  end.
Proof. apply (run_lookup h mg_genesis 0 0 eq_refl eq_refl). Qed.

Lemma only_elem {A} (f : A -> bool) l x : x ∈ only f l <-> x ∈ l /\ f x = true.
Proof. clear Hmax. unfold only. rewrite !elem_of_list_In. apply filter_In. Qed.
Lemma last_elem {A} (l : list A) x : last l = Some x -> x ∈ l.
Proof. clear Hmax. intros [l' ->]%last_Some. apply elem_of_app. right. by left. Qed.

(** ** Reading *)
Definition before (a b : MessageResponse) : Prop := mr_index a < mr_index b.
Lemma get_elem st s loc b r : r ∈ get_messages cfg st s loc b <->
  (loc = OnChain \/ loc = IPFS) /\ exists i m, mg_messages st !! (b, s, i) = Some m /\ r = map_to_response cfg m b loc i.
Proof. clear Hmax.
  unfold get_messages.
  assert (Hgen : forall l : PayloadLocation, r ∈ merge_sort by_index
    (omap (fun kv : N * N * N * Message => let '((b', s', i), m) := kv in
        if (b' =? b) && (s' =? s) then Some (map_to_response cfg m b l i) else None) (map_to_list (mg_messages st))) <->
     exists i m, mg_messages st !! (b, s, i) = Some m /\ r = map_to_response cfg m b l i).
  { intros l. rewrite merge_sort_Permutation, elem_of_list_omap. split.
    - intros (((( b' & s') & i) & m) & Hin & Hf). apply elem_of_map_to_list in Hin.
      destruct ((b' =? b) && (s' =? s)) eqn:E; [|done]. apply andb_true_iff in E as [E1 E2]. apply N.eqb_eq in E1, E2. subst.
      injection Hf as <-. by exists i, m.
    - intros (i & m & Hl & ->). exists (b, s, i, m). split; [by apply elem_of_map_to_list|]. by rewrite !N.eqb_refl. }
  destruct loc; rewrite ?Hgen; split; try (intros H; inversion H; fail); try tauto.
  all: intros [[?|?] _]; done.
Qed.

Lemma resp_index m b loc i : mr_index (map_to_response cfg m b loc i) = i.
Proof. clear Hmax. unfold map_to_response. destruct loc; try done. by destruct (default _ _). Qed.
Lemma resp_block m b loc i : mr_block (map_to_response cfg m b loc i) = b.
Proof. clear Hmax. unfold map_to_response. destruct loc; try done. by destruct (default _ _). Qed.
Lemma resp_provider m b loc i : mr_provider (map_to_response cfg m b loc i) = ms_provider m.
Proof. clear Hmax. unfold map_to_response. destruct loc; try done. by destruct (default _ _). Qed.

Instance by_index_trans : Transitive by_index.
Proof. clear Hmax. intros x y z. unfold by_index. lia. Qed.
Instance by_index_total : Total by_index.
Proof. clear Hmax. intros x y. unfold by_index. lia. Qed.

Lemma strict l : StronglySorted by_index l -> NoDup (map mr_index l) -> StronglySorted before l.
Proof. clear Hmax.
  induction 1 as [|x l Hs IH Hf]; intros Hd; constructor; cbn [map] in Hd; apply NoDup_cons in Hd as [Hn Hd].
  - auto.
  - rewrite Forall_forall in Hf |- *. intros y Hy. specialize (Hf y Hy). unfold by_index, before in *.
    assert (mr_index x <> mr_index y). { intros E. apply Hn. rewrite E. apply elem_of_list_fmap. by exists y. }
    lia.
Qed.

Lemma omap_nodup b s loc l : NoDup l.*1 ->
  NoDup (map mr_index (omap (fun kv : N * N * N * Message => let '((b', s', i), m) := kv in
        if (b' =? b) && (s' =? s) then Some (map_to_response cfg m b loc i) else None) l)).
Proof. clear Hmax.
  induction l as [|[[[b' s'] i] m] l IH]; intros H; [constructor|]. cbn [fmap list_fmap fst] in H.
  apply NoDup_cons in H as [Hn Hd]. cbn [omap list_omap]. destruct ((b' =? b) && (s' =? s)) eqn:E; [|by apply IH].
  cbn [map]. apply NoDup_cons. split; [|by apply IH]. rewrite resp_index. intros Hin. apply Hn.
  apply elem_of_list_fmap in Hin as (r & Hr & Hin). apply elem_of_list_omap in Hin as ([[[b'' s''] i''] m''] & Hin & Hf).
  destruct ((b'' =? b) && (s'' =? s)) eqn:E'; [|done]. injection Hf as <-. rewrite resp_index in Hr. subst i''.
  apply elem_of_list_fmap. exists (b'', s'', i, m''). split; [|done]. cbn.
  rewrite !andb_true_iff in E, E'. destruct E, E'. f_equal; try f_equal; lia.
Qed.

Lemma get_sorted st s loc b : StronglySorted before (get_messages cfg st s loc b).
Proof. clear Hmax.
  unfold get_messages. assert (Hs : forall l, NoDup (map mr_index l) -> StronglySorted before (merge_sort by_index l)).
  { intros l Hd. apply strict; [apply StronglySorted_merge_sort; apply _|]. assert (map mr_index (merge_sort by_index l) ≡ₚ map mr_index l) as ->; [apply Permutation_map, merge_sort_Permutation|done]. }
  destruct loc; try constructor; apply Hs, omap_nodup, NoDup_fst_map_to_list.
Qed.

Lemma sorted_eq l1 : forall l2, StronglySorted before l1 -> StronglySorted before l2 -> (forall x, x ∈ l1 <-> x ∈ l2) -> l1 = l2.
Proof. clear Hmax.
  induction l1 as [|x l1 IH]; intros l2 H1 H2 H.
  - destruct l2 as [|y l2]; [done|]. specialize (H y). rewrite elem_of_cons, elem_of_nil in H. tauto.
  - destruct l2 as [|y l2]; [specialize (H x); rewrite elem_of_cons, elem_of_nil in H; tauto|].
    apply StronglySorted_inv in H1 as [H1 F1]. apply StronglySorted_inv in H2 as [H2 F2].
    rewrite Forall_forall in F1, F2. unfold before in *.
    assert (x = y) as ->.
    { pose proof (proj1 (H x) ltac:(by left)) as Hx. pose proof (proj2 (H y) ltac:(by left)) as Hy.
      apply elem_of_cons in Hx as [Hx|Hx]; [done|]. apply elem_of_cons in Hy as [Hy|Hy]; [done|].
      specialize (F1 y Hy). specialize (F2 x Hx). lia. }
    f_equal. apply IH; [done..|]. intros z. specialize (H z). rewrite !elem_of_cons in H.
    split; intros Hz.
    + assert (z <> y) by (intros ->; specialize (F1 y Hz); lia). tauto.
    + assert (z <> y) by (intros ->; specialize (F2 y Hz); lia). tauto.
Qed.

Lemma before_index_inj l x y : StronglySorted before l -> x ∈ l -> y ∈ l -> mr_index x = mr_index y -> x = y.
Proof. clear Hmax.
  induction 1 as [|z l Hs IH Hf]; intros Hx Hy E; [inversion Hx|]. rewrite Forall_forall in Hf. unfold before in Hf.
  apply elem_of_cons in Hx as [->|Hx]; apply elem_of_cons in Hy as [->|Hy]; [done|..].
  - specialize (Hf y Hy). lia.
  - specialize (Hf x Hx). lia.
  - auto.
Qed.

Lemma get_ext st st' s loc b : (forall i, mg_messages st !! (b, s, i) = mg_messages st' !! (b, s, i)) ->
  get_messages cfg st s loc b = get_messages cfg st' s loc b.
Proof. clear Hmax.
  intros H. apply sorted_eq; [apply get_sorted..|]. intros r. rewrite !get_elem.
  split; intros (? & i & m & Hl & ->); (split; [done|]); exists i, m; (split; [|done]); by rewrite ?H in *; rewrite <- ?H in *.
Qed.

(** ** Posts and histories *)
Lemma posts_split h : forall st b q p, p ∈ posts_from cfg st b q h ->
  exists h1 h2, h = h1 ++ Call (po_env p) (Signed (po_who p)) (po_call p) :: h2
    /\ is_ok (mg_dispatch cfg (po_env p) (mg_run cfg st h1) (Signed (po_who p)) (po_call p)) = true
    /\ po_block p = b + blocks h1.
Proof.
  induction h as [|x h IH]; intros st b q p; cbn [posts_from]; [intros H; inversion H|].
  assert (Hrec : forall b' q', b' = b + blocks [x] -> p ∈ posts_from cfg (mg_step cfg st x) b' q' h ->
    exists h1 h2, x :: h = h1 ++ Call (po_env p) (Signed (po_who p)) (po_call p) :: h2
    /\ is_ok (mg_dispatch cfg (po_env p) (mg_run cfg st h1) (Signed (po_who p)) (po_call p)) = true
    /\ po_block p = b + blocks h1).
  { intros b' q' -> H. apply IH in H as (h1 & h2 & -> & Hok & Hb). exists (x :: h1), h2. split; [done|]. split; [done|].
    rewrite Hb. change (x :: h1) with ([x] ++ h1). rewrite blocks_app. lia. }
  destruct x as [|env o c].
  - apply Hrec. cbn. lia.
  - assert (Hb : b = b + blocks [Call env o c]) by (cbn; lia).
    destruct o as [who|]; [|by apply Hrec]. destruct (mg_dispatch cfg env st (Signed who) c) eqn:E; [|by apply Hrec].
    intros [->|H]%elem_of_cons; [|by eapply Hrec].
    exists [], h. cbn [po_env po_who po_call po_block app mg_run fold_left blocks]. split; [done|]. split; [|lia]. by rewrite E.
Qed.

Lemma posts_in h p : p ∈ posts cfg h -> Call (po_env p) (Signed (po_who p)) (po_call p) ∈ h
  /\ acceptable cfg (po_env p) (po_block p) (Signed (po_who p)) (po_call p).
Proof.
  intros H. apply posts_split in H as (h1 & h2 & -> & Hok & Hb). split; [apply elem_of_app; right; by left|].
  apply accepted_iff in Hok. rewrite run_block in Hok. cbn [mg_genesis mg_block] in Hok. by rewrite Hb.
Qed.

(** numbers grow within a block *)
Lemma posts_sorted h : forall st b q,
  StronglySorted (fun p p' => po_block p < po_block p' \/ (po_block p = po_block p' /\ po_seq p < po_seq p')) (posts_from cfg st b q h).
Proof.
  induction h as [|x h IH]; intros st b q; cbn [posts_from]; [constructor|].
  destruct x as [|env o c]; [apply IH|].
  destruct o as [who|]; [|apply IH]. destruct (mg_dispatch cfg env st (Signed who) c); [|apply IH].
  constructor; [apply IH|]. apply Forall_forall. intros p Hp. apply posts_from_ge in Hp. cbn. lia.
Qed.
Lemma sorted_filter {A} (R : A -> A -> Prop) f l : StronglySorted R l -> StronglySorted R (only f l).
Proof.
  unfold only. induction 1 as [|x l Hs IH Hf]; cbn [List.filter]; [constructor|]. destruct (f x); [|done].
  constructor; [done|]. rewrite Forall_forall in Hf |- *. intros y Hy. apply Hf. by apply only_elem in Hy as [? _].
Qed.

(** the number of a post is the number of posts before it in the block *)
Lemma posts_count h : forall st b q p, p ∈ posts_from cfg st b q h ->
  po_block p = b -> po_seq p < q + len (only (in_block b) (posts_from cfg st b q h)).
Proof.
  induction h as [|x h IH]; intros st b q p; cbn [posts_from]; [intros H; inversion H|].
  destruct x as [|env o c].
  - intros H E. apply posts_from_ge in H. lia.
  - destruct o as [who|]; [|apply IH]. destruct (mg_dispatch cfg env st (Signed who) c); [|apply IH].
    unfold only. cbn [List.filter]. unfold in_block at 1. cbn [po_block]. rewrite N.eqb_refl, len_cons.
    intros [->|H]%elem_of_cons Hb; [cbn; lia|]. apply IH in H; [|done]. unfold only in H. lia.
Qed.
Lemma posts_count_block h : forall st b q p, p ∈ posts_from cfg st b q h -> b < po_block p ->
  po_seq p < len (only (in_block (po_block p)) (posts_from cfg st b q h)).
Proof.
  induction h as [|x h IH]; intros st b q p; cbn [posts_from]; [intros H; inversion H|].
  destruct x as [|env o c].
  - intros H Hb. destruct (N.eq_dec (po_block p) (b + 1)) as [E|E].
    + rewrite E. apply posts_count in H; [|done]. lia.
    + apply IH; [done|]. lia.
  - destruct o as [who|]; [|apply IH]. destruct (mg_dispatch cfg env st (Signed who) c); [|apply IH].
    unfold only. cbn [List.filter]. intros [->|H]%elem_of_cons Hb; [cbn in Hb; lia|].
    apply IH in H; [|done]. unfold only in H. destruct (in_block _ _); [rewrite len_cons|]; lia.
Qed.
Lemma posts_seq h p : p ∈ posts cfg h -> po_seq p < len (only (in_block (po_block p)) (posts cfg h)).
Proof.
  intros H. unfold posts in *. destruct (N.eq_dec (po_block p) 0) as [E|E].
  - apply posts_count in H; [|done]. rewrite E. lia.
  - apply posts_count_block; [done|]. apply N.neq_0_lt_0 in E. done.
Qed.

(** ** From what is stored to what is read *)
Lemma stores_answers h p m loc : typed h -> p ∈ posts cfg h -> stores p m ->
  (forall info, gv_schema (po_env p) (call_schema (po_call p)) = Some info -> si_location info = loc) ->
  (loc = OnChain \/ loc = IPFS) /\ answers cfg p (map_to_response cfg m (po_block p) loc (po_seq p)).
Proof.
  intros Ht Hp [Hpr Hs] Hloc. pose proof (posts_in _ _ Hp) as [Hin (who & m0 & info & [= <-] & Hc & Hi & Ha)].
  specialize (Hloc _ Hi). unfold answers. rewrite resp_provider, resp_block, resp_index.
  destruct (po_call p) as [s cid l|bh s pl] eqn:Ec.
  - destruct Ha as [Hl _]. assert (loc = IPFS) as -> by congruence. split; [by right|].
    destruct Hs as (Hso & b & Hd & Hpl & Hb). unfold map_to_response, dec_offchain. rewrite Hpl. unfold enc_offchain.
    rewrite dec_bounded_enc by (try done; lia). unfold enc_u32. cbn [le_bytes].
    match goal with |- context [le_val ?x] => change (le_val x) with (le_val (le_bytes 4 l)) end.
    rewrite le_val_bytes by (change (256 ^ N.of_nat 4) with 4294967296; specialize (Ht _ _ _ _ _ Hin); unfold u32_max in Ht; lia).
    cbn [default mr_provider mr_payload mr_source mr_cid mr_length]. repeat (split; [done|]). split; [|done]. by exists b.
  - destruct Ha as [Hl _]. assert (loc = OnChain) as -> by congruence. split; [by left|].
    destruct Hs as [Hs1 Hs2]. unfold map_to_response. cbn [mr_provider mr_payload mr_source mr_cid mr_length]. rewrite Hs1, Hs2. done.
Qed.

Lemma forall2_build {A B} (R : A -> B -> Prop) (P : B -> Prop) l : (forall x, x ∈ l -> exists y, P y /\ R x y) ->
  exists l', Forall2 R l l' /\ Forall P l'.
Proof.
  induction l as [|x l IH]; intros H; [exists []; split; constructor|].
  destruct (H x ltac:(by left)) as (y & Hy & Hr). destruct IH as (l' & H1 & H2); [intros; apply H; by right|].
  exists (y :: l'). split; by constructor.
Qed.

Lemma complete_lemma h s loc b : typed h -> located s loc h ->
  len (only (in_block b) (posts cfg h)) <= 65536 ->
  Forall2 (answers cfg) (only (under b s) (posts cfg h)) (get_messages cfg (mg_run cfg mg_genesis h) s loc b).
Proof.
  intros Ht Hloc Hcount. set (G := get_messages cfg (mg_run cfg mg_genesis h) s loc b).
  assert (Hseq : forall p, p ∈ only (under b s) (posts cfg h) -> p ∈ posts cfg h /\ po_block p = b /\ call_schema (po_call p) = s /\ po_seq p <= 65535).
  { intros p [Hp Hu]%only_elem. unfold under in Hu. apply andb_true_iff in Hu as [E1 E2]. apply N.eqb_eq in E1, E2.
    repeat (split; [done|]). pose proof (posts_seq _ _ Hp). rewrite E1 in *. lia. }
  assert (Huniq : forall p p', p ∈ posts cfg h -> p' ∈ posts cfg h -> po_block p = po_block p' -> po_seq p = po_seq p' -> p = p').
  { pose proof (posts_sorted h mg_genesis 0 0) as Hs. fold (posts cfg h) in Hs. revert Hs. generalize (posts cfg h). clear.
    induction 1 as [|x l Hs IH Hf]; intros p p' Hp Hp' E1 E2; [inversion Hp|]. rewrite Forall_forall in Hf.
    apply elem_of_cons in Hp as [->|Hp]; apply elem_of_cons in Hp' as [->|Hp']; [done|..].
    - specialize (Hf _ Hp'). lia.
    - specialize (Hf _ Hp). lia.
    - auto. }
  assert (Hlook : forall p, p ∈ only (under b s) (posts cfg h) -> exists y, (y ∈ G) /\ answers cfg p y).
  { intros p Hp. pose proof (Hseq p Hp) as (Hin & Hb & Hs & Hq).
    pose proof (genesis_lookup h b s (po_seq p)) as Hl.
    assert (Hk : p ∈ only (at_key b s (po_seq p)) (posts cfg h)).
    { apply only_elem. split; [done|]. apply only_elem in Hp as [_ Hu]. unfold at_key. rewrite Hu. cbn. lia. }
    destruct (last (only (at_key b s (po_seq p)) (posts cfg h))) as [p'|] eqn:El.
    2:{ apply last_None in El. rewrite El in Hk. inversion Hk. }
    destruct Hl as (m & Hm & Hst). apply last_elem in El. apply only_elem in El as [Hin' Hk'].
    unfold at_key in Hk'. apply andb_true_iff in Hk' as [Hu' Hk']. apply N.eqb_eq in Hk'.
    pose proof (Hseq p' ltac:(apply only_elem; done)) as (_ & Hb' & Hs' & Hq').
    assert (p' = p) as -> by (apply Huniq; [done..|congruence|lia]).
    destruct (stores_answers h p m loc Ht Hin Hst) as [Hl Hans].
    { intros info Hi. rewrite Hs in Hi. eapply Hloc; [|exact Hi]. by apply posts_in. }
    exists (map_to_response cfg m (po_block p) loc (po_seq p)). split; [|done].
    apply get_elem. split; [done|]. exists (po_seq p), m. by rewrite Hb. }
  destruct (forall2_build _ _ _ Hlook) as (L & HL & HG). rewrite Forall_forall in HG.
  enough (G = L) as -> by done. symmetry.
  assert (HsL : StronglySorted before L).
  { assert (Hss : StronglySorted (fun p p' => po_seq p < po_seq p') (only (under b s) (posts cfg h))).
    { pose proof (sorted_filter _ (under b s) _ (posts_sorted h mg_genesis 0 0)) as Hs. fold (posts cfg h) in Hs.
      assert (Hbl : Forall (fun p => po_block p = b) (only (under b s) (posts cfg h))).
      { apply Forall_forall. intros p Hp. by apply Hseq. }
      clear -Hs Hbl. induction Hs as [|x l Hs IH Hf]; constructor; inversion Hbl; subst; [auto|].
      rewrite Forall_forall in *. intros y Hy. specialize (Hf y Hy). specialize (H2 y Hy). lia. }
    clear -HL Hss. revert Hss. induction HL as [|p y l l' Hr HL IH]; intros Hss; [constructor|].
    apply StronglySorted_inv in Hss as [Hss Hf]. constructor; [auto|]. rewrite Forall_forall in Hf. apply Forall_forall. intros z Hz.
    apply elem_of_list_lookup in Hz as [i Hz]. destruct (Forall2_lookup_r _ _ _ _ _ HL Hz) as (p' & Hp' & Hr').
    specialize (Hf p' ltac:(by eapply elem_of_list_lookup_2)). unfold before. destruct Hr as (_ & _ & -> & _). destruct Hr' as (_ & _ & -> & _). done. }
  apply sorted_eq; [done|apply get_sorted|]. intros r. split; [apply HG|].
  intros Hr. pose proof Hr as Hr0. apply get_elem in Hr as (Hl & i & m & Hm & ->).
  pose proof (genesis_lookup h b s i) as Hlk. destruct (last _) as [p|] eqn:El; [|congruence].
  apply last_elem, only_elem in El as [Hin Hk]. unfold at_key in Hk. apply andb_true_iff in Hk as [Hu Hk]. apply N.eqb_eq in Hk.
  assert (Hp : p ∈ only (under b s) (posts cfg h)) by (apply only_elem; done).
  pose proof (Hseq p Hp) as (_ & _ & _ & Hq). apply elem_of_list_lookup in Hp as [j Hp].
  destruct (Forall2_lookup_l _ _ _ _ _ HL Hp) as (y & Hy & Ha). apply elem_of_list_lookup_2 in Hy.
  enough (map_to_response cfg m b loc i = y) as -> by done.
  apply (before_index_inj G); [apply get_sorted|done|by apply HG|]. rewrite resp_index. destruct Ha as (_ & _ & -> & _). lia.
Qed.

(** ** Attribution *)
Lemma attribution_lemma h s loc b r : r ∈ get_messages cfg (mg_run cfg mg_genesis h) s loc b ->
  exists h1 h2 env who c,
    h = h1 ++ Call env (Signed who) c :: h2 /\ blocks h1 = b
    /\ is_ok (mg_dispatch cfg env (mg_run cfg mg_genesis h1) (Signed who) c) = true
    /\ call_schema c = s /\ mr_block r = b /\ controls (gv_msa env) who (mr_provider r)
    /\ (forall d, mr_source r = Some d ->
          exists bh pl, c = AddOnchainMessage bh s pl /\ mr_payload r = Some pl
            /\ ((bh = None /\ d = mr_provider r)
               \/ (bh = Some d /\ schema_ok {| e_block := b; e_max_schema := e_max_schema (gv_env env); e_has_handle := e_has_handle (gv_env env) |}
                                    (gv_msa env) (mr_provider r) d s))).
Proof.
  intros Hr. apply get_elem in Hr as (Hl & i & m & Hm & ->).
  pose proof (genesis_lookup h b s i) as Hlk. destruct (last _) as [p|] eqn:El; [|congruence].
  destruct Hlk as (m' & Hm' & Hst). assert (m' = m) as -> by congruence.
  apply last_elem, only_elem in El as [Hin Hk]. unfold at_key, under in Hk. rewrite !andb_true_iff in Hk.
  destruct Hk as [[E1 E2] E3]. apply N.eqb_eq in E1, E2, E3.
  pose proof (posts_in _ _ Hin) as [_ Ha]. apply posts_split in Hin as (h1 & h2 & -> & Hok & Hb).
  exists h1, h2, (po_env p), (po_who p), (po_call p). split; [done|]. split; [lia|]. split; [done|]. split; [done|].
  rewrite resp_block, resp_provider. split; [done|]. destruct Hst as [Hc Hst]. split; [done|].
  intros d Hd. destruct Ha as (who & m0 & info & [= <-] & Hc0 & Hi & Ha).
  assert (m0 = ms_provider m) as -> by (unfold controls in *; congruence).
  assert (Hso : mr_source (map_to_response cfg m b loc i) = if bool_decide (loc = OnChain) then ms_source m else None).
  { unfold map_to_response. destruct loc; try done. by destruct (default _ _). }
  rewrite Hso in Hd. destruct (bool_decide (loc = OnChain)) eqn:Elo; [|done]. apply bool_decide_eq_true in Elo as ->.
  destruct (po_call p) as [s' cid l|bh s' pl] eqn:Ec; [destruct Hst as [Hn _]; congruence|].
  cbn [call_schema] in E2. subst s'. exists bh, pl. split; [done|]. destruct Hst as [Hpl Hsrc]. split; [cbn; by rewrite Hpl|].
  rewrite Hsrc in Hd. destruct bh as [d'|]; injection Hd as <-; cbn [default from_option id].
  - right. split; [done|]. destruct Ha as (_ & _ & Ha). rewrite <- E1. by apply Ha.
  - by left.
Qed.

(** ** Permanence *)
Lemma run_lookup_past h st b s i : b < mg_block st -> mg_messages (mg_run cfg st h) !! (b, s, i) = mg_messages st !! (b, s, i).
Proof.
  revert st; induction h as [|x h IH]; intros st Hb; [done|].
  change (mg_run cfg st (x :: h)) with (mg_run cfg (mg_step cfg st x) h).
  rewrite IH by (rewrite step_block; lia). destruct x as [|env o c]; [done|]. cbn [mg_step].
  destruct (mg_dispatch cfg env st o c) as [st'|] eqn:E; [|done]. apply dispatch_ok in E as (who & m & -> & -> & _).
  cbn [posted mg_messages]. apply lookup_insert_ne. intros [= H]. lia.
Qed.
Lemma past_lemma h1 h2 s loc b : b < blocks h1 ->
  get_messages cfg (mg_run cfg mg_genesis (h1 ++ h2)) s loc b = get_messages cfg (mg_run cfg mg_genesis h1) s loc b.
Proof.
  intros H. apply get_ext. intros i. rewrite run_app. apply run_lookup_past. rewrite run_block. cbn. lia.
Qed.
Lemma future_lemma h s loc b : blocks h < b -> get_messages cfg (mg_run cfg mg_genesis h) s loc b = [].
Proof.
  intros H. destruct (get_messages cfg (mg_run cfg mg_genesis h) s loc b) as [|r l] eqn:E; [done|].
  destruct (attribution_lemma h s loc b r) as (h1 & h2 & env & who & c & -> & Hb & _); [rewrite E; by left|].
  rewrite blocks_app in H. lia.
Qed.
Lemma grown_lemma h1 h2 s loc : head h2 <> None -> head h2 = Some NextBlock ->
  grown (blocks h1) (get_messages cfg (mg_run cfg mg_genesis h1) s loc) (get_messages cfg (mg_run cfg mg_genesis (h1 ++ h2)) s loc).
Proof.
  intros _ Hh. split.
  - intros b Hb. destruct h2 as [|x h2]; [done|]. injection Hh as ->.
    change (NextBlock :: h2) with ([NextBlock] ++ h2). rewrite app_assoc. rewrite past_lemma.
    + apply get_ext. intros i. by rewrite run_app.
    + rewrite blocks_app. cbn. lia.
  - intros b Hb. by apply future_lemma.
Qed.

Lemma index_bound h : forall st, mg_index st <= 65535 -> mg_index (mg_run cfg st h) <= 65535.
Proof.
  induction h as [|x h IH]; intros st H; [done|]. change (mg_run cfg st (x :: h)) with (mg_run cfg (mg_step cfg st x) h).
  apply IH. destruct x as [|env o c]; [cbn; lia|]. cbn [mg_step].
  destruct (mg_dispatch cfg env st o c) as [st'|] eqn:E; [|done]. apply dispatch_ok in E as (who & m & -> & -> & _).
  cbn. unfold sat_add, u16_max. lia.
Qed.

Lemma posts_app h1 h2 : exists l, posts cfg (h1 ++ h2) = posts cfg h1 ++ l.
Proof.
  unfold posts. generalize 0 at 2 4 as q. generalize 0 as b. generalize mg_genesis as st.
  induction h1 as [|x h1 IH]; intros st b q; [by eexists|].
  cbn [app posts_from]. destruct x as [|env o c]; [apply IH|]. destruct o as [who|]; [|apply IH].
  destruct (mg_dispatch cfg env st (Signed who) c); [|apply IH].
  destruct (IH (mg_step cfg st (Call env (Signed who) c)) b (q + 1)) as [l ->]. by exists l.
Qed.
Lemma only_app {A} (f : A -> bool) a b : only f (a ++ b) = only f a ++ only f b.
Proof. unfold only. apply List.filter_app. Qed.

Lemma forall2_prefix {A B} (R : A -> B -> Prop) l k l1 l2 :
  (forall p x y, R p x -> R p y -> x = y) -> Forall2 R l l1 -> Forall2 R (l ++ k) l2 -> l1 `prefix_of` l2.
Proof.
  intros Hf H. revert l2. induction H as [|p x l l1 Hr H IH]; intros l2 H2; [apply prefix_nil|].
  cbn [app] in H2. inversion H2 as [|? y ? l2' Hr' H2']; subst. rewrite (Hf _ _ _ Hr Hr'). apply prefix_cons. auto.
Qed.
Lemma answers_fun p x y : answers cfg p x -> answers cfg p y -> x = y.
Proof.
  destruct x as [a1 a2 a3 a4 a5 a6 a7], y as [b1 b2 b3 b4 b5 b6 b7]. unfold answers, controls. cbn.
  intros (H1 & H2 & H3 & H) (G1 & G2 & G3 & G). assert (a1 = b1) by congruence.
  destruct (po_call p) as [s cid l|bh s pl].
  - destruct H as (-> & -> & (b & Hb & ->) & ->), G as (-> & -> & (b' & Gb & ->) & ->). congruence.
  - destruct H as (-> & -> & -> & ->), G as (-> & -> & -> & ->). congruence.
Qed.

Lemma current_lemma h1 h2 s loc b : typed (h1 ++ h2) -> located s loc (h1 ++ h2) ->
  len (only (in_block b) (posts cfg (h1 ++ h2))) <= 65536 ->
  get_messages cfg (mg_run cfg mg_genesis h1) s loc b `prefix_of` get_messages cfg (mg_run cfg mg_genesis (h1 ++ h2)) s loc b.
Proof.
  intros Ht Hl Hc. pose proof (complete_lemma _ _ _ _ Ht Hl Hc) as H2. destruct (posts_app h1 h2) as [k Hk].
  rewrite Hk in H2, Hc. rewrite only_app in H2, Hc. rewrite len_app in Hc.
  eapply forall2_prefix; [apply answers_fun| |exact H2]. apply complete_lemma; [..|lia].
  - intros env o s' cid l H. eapply Ht. apply elem_of_app. left. exact H.
  - intros env o c info H. eapply Hl. apply elem_of_app. left. exact H.
Qed.

(** ** At most 65536 *)
Lemma indexes_bound h s loc b r : r ∈ get_messages cfg (mg_run cfg mg_genesis h) s loc b -> mr_index r <= 65535.
Proof.
  intros Hr. apply get_elem in Hr as (Hl & i & m & Hm & ->). rewrite resp_index.
  pose proof (genesis_lookup h b s i) as Hlk. destruct (last _) as [p|] eqn:El; [|congruence].
  apply last_elem, only_elem in El as [Hin Hk]. unfold at_key in Hk. apply andb_true_iff in Hk as [_ Hk]. lia.
Qed.
Lemma sorted_len l : forall n, StronglySorted before l -> (forall r, r ∈ l -> n <= mr_index r <= 65535) -> len l <= 65536 - n.
Proof.
  induction l as [|x l IH]; intros n Hs Hb; [rewrite len_nil; lia|]. apply StronglySorted_inv in Hs as [Hs Hf].
  rewrite Forall_forall in Hf. rewrite len_cons. pose proof (Hb x ltac:(by left)) as Hx.
  specialize (IH (mr_index x + 1) Hs). assert (len l <= 65536 - (mr_index x + 1)).
  { apply IH. intros r Hr. specialize (Hf r Hr). unfold before in Hf. pose proof (Hb r ltac:(by right)). lia. }
  lia.
Qed.
Lemma count_lemma h s loc b : len (get_messages cfg (mg_run cfg mg_genesis h) s loc b) <= 65536.
Proof.
  replace 65536 with (65536 - 0) by lia. apply sorted_len; [apply get_sorted|]. intros r Hr. apply indexes_bound in Hr. lia.
Qed.

Lemma dispatch_block_only env st st' o c : mg_block st = mg_block st' ->
  is_ok (mg_dispatch cfg env st o c) = is_ok (mg_dispatch cfg env st' o c).
Proof.
  intros H. apply eq_true_iff_eq. by rewrite !accepted_iff, H.
Qed.
Lemma posts_repeat env who c n : forall st b q, is_ok (mg_dispatch cfg env st (Signed who) c) = true ->
  len (only (under b (call_schema c)) (posts_from cfg st b q (replicate n (Call env (Signed who) c)))) = N.of_nat n.
Proof.
  induction n as [|n IH]; intros st b q H; [done|]. cbn [replicate posts_from].
  destruct (mg_dispatch cfg env st (Signed who) c) as [st'|] eqn:E; [|done].
  unfold only. cbn [List.filter]. unfold under at 1. cbn [po_block po_call]. rewrite !N.eqb_refl. cbn [andb]. rewrite len_cons.
  fold (only (A := Post)). rewrite IH; [lia|].
  rewrite <- H, <- E. apply dispatch_block_only. rewrite step_block. cbn. lia.
Qed.

(** ** Events *)
Lemma events_from h : forall st b q, mg_block st = b -> mg_index st = N.min q 65535 -> mg_events st = N.min q 1 ->
  let st' := mg_run cfg st h in
  mg_events st' = N.min (len (only (in_block (mg_block st')) (posts_from cfg st b q h)) + if mg_block st' =? b then q else 0) 1.
Proof.
  induction h as [|x h IH]; intros st b q Hb Hq He; cbn zeta.
  { cbn [mg_run fold_left posts_from only List.filter]. rewrite len_nil, Hb, N.eqb_refl. lia. }
  change (mg_run cfg st (x :: h)) with (mg_run cfg (mg_step cfg st x) h).
  destruct x as [|env o c]; cbn [posts_from].
  - rewrite (IH _ (b + 1) 0) by (cbn; try done; by rewrite Hb).
    assert (Hge : b + 1 <= mg_block (mg_run cfg (mg_step cfg st NextBlock) h)) by (rewrite run_block; cbn; lia).
    replace (mg_block (mg_run cfg (mg_step cfg st NextBlock) h) =? b) with false by lia. by destruct (_ =? _).
  - destruct (mg_dispatch cfg env st o c) as [st'|] eqn:E.
    2:{ assert (Hst : mg_step cfg st (Call env o c) = st) by (cbn; by rewrite E). rewrite Hst.
        destruct o; rewrite ?E; by apply IH. }
    assert (Hst : mg_step cfg st (Call env o c) = st') by (cbn; by rewrite E). rewrite Hst.
    pose proof E as E0. apply dispatch_ok in E0 as (who & m & -> & -> & Hm & _). rewrite E.
    assert (Hi : mg_index (posted st (call_schema c) m) = N.min (q + 1) 65535).
    { cbn. rewrite Hq. unfold sat_add, u16_max. lia. }
    assert (He' : mg_events (posted st (call_schema c) m) = N.min (q + 1) 1).
    { cbn. destruct (mg_index st =? 0) eqn:E0; lia. }
    rewrite (IH (posted st (call_schema c) m) b (q + 1) Hb Hi He'). unfold only. cbn [List.filter].
    set (B := mg_block _). unfold in_block at 2. cbn [po_block]. rewrite (N.eqb_sym b B).
    destruct (B =? b); [rewrite len_cons|]; lia.
Qed.
Lemma events_lemma h : let st := mg_run cfg mg_genesis h in
  mg_events st = if bool_decide (only (in_block (blocks h)) (posts cfg h) = []) then 0 else 1.
Proof.
  cbn zeta. pose proof (events_from h mg_genesis 0 0 eq_refl eq_refl eq_refl) as H. cbn zeta in H. rewrite H.
  replace (if mg_block (mg_run cfg mg_genesis h) =? 0 then 0 else 0) with 0 by (by destruct (_ =? _)).
  fold (posts cfg h). rewrite run_block. change (mg_block mg_genesis + blocks h) with (blocks h).
  destruct (only (in_block (blocks h)) (posts cfg h)) as [|p l] eqn:E.
  - rewrite bool_decide_eq_true_2 by done. by rewrite len_nil.
  - rewrite bool_decide_eq_false_2 by done. rewrite len_cons. lia.
Qed.

(** ** Migration *)
Lemma move_list b s l : forall new kb ks ki,
  fold_left (move_one b s) l new !! (kb, ks, ki) =
  match last (List.filter (fun m => bool_decide ((kb, ks) = (b, s)) && (om_index m =? ki)) l) with
  | Some m => Some {| ms_payload := om_payload m; ms_provider := om_provider m; ms_source := om_source m |}
  | None => new !! (kb, ks, ki)
  end.
Proof. clear Hmax.
  induction l as [|m l IH]; intros new kb ks ki; [done|]. cbn [fold_left List.filter]. rewrite IH. unfold move_one.
  destruct (bool_decide ((kb, ks) = (b, s)) && (om_index m =? ki)) eqn:E.
  - apply andb_true_iff in E as [E1 E2]. apply bool_decide_eq_true in E1 as [= -> ->]. apply N.eqb_eq in E2 as <-.
    rewrite last_cons. destruct (last _); [done|]. apply lookup_insert.
  - destruct (last _); [done|]. apply lookup_insert_ne. intros [= E1 E2 E3]. subst kb ks ki.
    rewrite bool_decide_eq_true_2, N.eqb_refl in E by done. done.
Qed.

Definition as_message (m : OldMessage) : Message :=
  {| ms_payload := om_payload m; ms_provider := om_provider m; ms_source := om_source m |}.
Lemma move_all_lookup kvs : forall new kb ks ki, NoDup kvs.*1 ->
  fold_left move_all kvs new !! (kb, ks, ki) =
  match (list_find (fun kv : N * N * list OldMessage => kv.1 = (kb, ks)) kvs) with
  | Some (_, (_, l)) => match last (List.filter (fun m => om_index m =? ki) l) with Some m => Some (as_message m) | None => new !! (kb, ks, ki) end
  | None => new !! (kb, ks, ki)
  end.
Proof. clear Hmax.
  induction kvs as [|[[b s] l] kvs IH]; intros new kb ks ki Hd; [done|]. cbn [fmap list_fmap fst] in Hd. apply NoDup_cons in Hd as [Hn Hd].
  cbn [fold_left move_all]. rewrite IH by done. cbn [list_find fst]. case_decide as E.
  - injection E as -> ->. destruct (list_find _ kvs) as [[j [k' l']]|] eqn:Ef.
    + apply list_find_Some in Ef as (Hj & Hk & _). cbn in Hk. subst k'. exfalso. apply Hn. apply elem_of_list_fmap.
      exists (kb, ks, l'). split; [done|]. by eapply elem_of_list_lookup_2.
    + rewrite move_list. rewrite bool_decide_eq_true_2 by done. done.
  - assert (Hmv : fold_left (move_one b s) l new !! (kb, ks, ki) = new !! (kb, ks, ki)).
    { rewrite move_list. rewrite bool_decide_eq_false_2 by congruence. cbn [andb].
      replace (List.filter (fun _ => false) l) with (@nil OldMessage); [done|]. clear. by induction l. }
    destruct (list_find _ kvs) as [[j [k' l']]|]; cbn [fmap option_fmap option_map prod_map]; [|by rewrite Hmv].
    cbn [snd id]. rewrite Hmv. done.
Qed.

Lemma find_map_to_list (m : gmap (N * N) (list OldMessage)) k :
  match list_find (fun kv : N * N * list OldMessage => kv.1 = k) (map_to_list m) with
  | Some (_, (_, l)) => m !! k = Some l
  | None => m !! k = None
  end.
Proof. clear Hmax.
  destruct (list_find _ _) as [[j [k' l]]|] eqn:E.
  - apply list_find_Some in E as (Hj & Hk & _). cbn in Hk. subst k'. apply elem_of_list_lookup_2 in Hj. by apply elem_of_map_to_list.
  - apply list_find_None in E. rewrite Forall_forall in E. destruct (m !! k) as [l|] eqn:El; [|done].
    exfalso. apply (E (k, l)); [by apply elem_of_map_to_list|done].
Qed.

Lemma migrate_lookup st b s i : mo_version st < 2 ->
  mo_new (migrate_messages st) !! (b, s, i) =
  match mo_old st !! (b, s) with
  | Some l => match last (List.filter (fun m => om_index m =? i) l) with Some m => Some (as_message m) | None => mo_new st !! (b, s, i) end
  | None => mo_new st !! (b, s, i)
  end.
Proof. clear Hmax.
  intros Hv. unfold migrate_messages. replace (mo_version st <? 2) with true by lia. cbn [mo_new].
  rewrite move_all_lookup by apply NoDup_fst_map_to_list.
  pose proof (find_map_to_list (mo_old st) (b, s)) as H. destruct (list_find _ _) as [[j [k l]]|]; by rewrite H.
Qed.

Lemma last_filter_unique l m i : StronglySorted (fun a b => om_index a < om_index b) l -> m ∈ l -> om_index m = i ->
  last (List.filter (fun m => om_index m =? i) l) = Some m.
Proof. clear Hmax.
  intros Hs Hin <-. induction Hs as [|x l Hs IH Hf]; [inversion Hin|]. rewrite Forall_forall in Hf. cbn [List.filter].
  apply elem_of_cons in Hin as [->|Hin].
  - rewrite N.eqb_refl. replace (List.filter _ l) with (@nil OldMessage); [done|].
    clear -Hf. induction l as [|y l IH]; [done|]. cbn. pose proof (Hf y ltac:(by left)). replace (om_index y =? om_index x) with false by lia.
    apply IH. intros z Hz. apply Hf. by right.
  - specialize (Hf m Hin). replace (om_index x =? om_index m) with false by lia. auto.
Qed.

Lemma migrate_lemma st st' b s l loc : mo_version st < 2 -> loc = OnChain \/ loc = IPFS ->
  mg_messages st' = mo_new (migrate_messages st) ->
  mo_old st !! (b, s) = Some l -> StronglySorted (fun x y => om_index x < om_index y) l ->
  (forall i, mo_new st !! (b, s, i) = None) ->
  get_messages cfg st' s loc b = map (fun m => map_to_response cfg (as_message m) b loc (om_index m)) l.
Proof. clear Hmax.
  intros Hv Hloc Hst Hl Hs Hnew. apply sorted_eq; [apply get_sorted| |].
  - clear -Hs. induction Hs as [|x l Hs IH Hf]; cbn [map]; constructor; [done|].
    rewrite Forall_forall in Hf. apply Forall_forall. intros r (y & -> & Hy)%elem_of_list_fmap. unfold before. rewrite !resp_index. auto.
  - intros r. rewrite get_elem, elem_of_list_fmap. rewrite Hst. split.
    + intros (_ & i & m & Hm & ->). rewrite migrate_lookup, Hl in Hm by done.
      destruct (last _) as [om|] eqn:El; [|by rewrite Hnew in Hm]. injection Hm as <-.
      apply last_elem, only_elem in El as [Hin Hi]. apply N.eqb_eq in Hi as <-. by exists om.
    + intros (om & -> & Hin). split; [done|]. exists (om_index om), (as_message om). split; [|done].
      rewrite migrate_lookup, Hl by done. by erewrite last_filter_unique.
Qed.
Lemma migrate_other st st' b s loc : mg_messages st' = mo_new (migrate_messages st) -> mo_old st !! (b, s) = None ->
  forall st0, mg_messages st0 = mo_new st -> get_messages cfg st' s loc b = get_messages cfg st0 s loc b.
Proof. clear Hmax.
  intros Hst Hl st0 Hst0. apply get_ext. intros i. rewrite Hst, Hst0. destruct (N.lt_ge_cases (mo_version st) 2) as [Hv|Hv].
  - by rewrite migrate_lookup, Hl.
  - unfold migrate_messages. by replace (mo_version st <? 2) with false by lia.
Qed.
End proofs.

Lemma migrate_twice st : migrate_messages (migrate_messages st) = migrate_messages st.
Proof. unfold migrate_messages. destruct (mo_version st <? 2) eqn:E; [done|]. by rewrite E. Qed.
Lemma migrate_end st : mo_version st < 2 -> mo_old (migrate_messages st) = ∅ /\ mo_version (migrate_messages st) = 2.
Proof. intros H. unfold migrate_messages. by replace (mo_version st <? 2) with true by lia. Qed.

(** ** The 65537th message of a block *)
Section overflow.
Variable cfg : MgCfg.
Hypothesis Hmax : g_max cfg <= u32_max.

Lemma run_repeat env who c : forall n st, mg_index st <= 65535 -> is_ok (mg_dispatch cfg env st (Signed who) c) = true ->
  let st' := mg_run cfg st (replicate n (Call env (Signed who) c)) in
  mg_block st' = mg_block st /\ mg_index st' = N.min (mg_index st + N.of_nat n) 65535.
Proof.
  induction n as [|n IH]; intros st Hle H; cbn zeta.
  { cbn [replicate mg_run fold_left]. lia. }
  cbn [replicate]. change (mg_run cfg st (?x :: ?h)) with (mg_run cfg (mg_step cfg st x) h).
  destruct (mg_dispatch cfg env st (Signed who) c) as [st'|] eqn:E; [|done].
  assert (Hst : mg_step cfg st (Call env (Signed who) c) = st') by (cbn [mg_step]; by rewrite E). rewrite Hst.
  pose proof E as E0. apply dispatch_ok in E0 as (w & m & _ & -> & _); [|done].
  destruct (IH (posted st (call_schema c) m)) as [H1 H2].
  { cbn. unfold sat_add, u16_max. lia. }
  { rewrite <- H, <- E. by apply dispatch_block_only. }
  rewrite H1, H2. cbn [posted mg_block mg_index]. unfold sat_add, u16_max. split; [done|]. lia.
Qed.

Lemma overwritten_lemma env who c1 c2 loc n : N.of_nat n = 65535 -> loc = OnChain \/ loc = IPFS ->
  call_schema c1 = call_schema c2 ->
  is_ok (mg_dispatch cfg env mg_genesis (Signed who) c1) = true ->
  is_ok (mg_dispatch cfg env mg_genesis (Signed who) c2) = true ->
  let h := replicate n (Call env (Signed who) c1) ++ [Call env (Signed who) c1] in
  let h' := h ++ [Call env (Signed who) c2] in
  exists m1 m2, stores cfg {| po_block := 0; po_seq := 0; po_env := env; po_who := who; po_call := c1 |} m1
    /\ stores cfg {| po_block := 0; po_seq := 0; po_env := env; po_who := who; po_call := c2 |} m2
    /\ mg_messages (mg_run cfg mg_genesis h) !! (0, call_schema c1, 65535) = Some m1
    /\ mg_messages (mg_run cfg mg_genesis h') !! (0, call_schema c1, 65535) = Some m2.
Proof.
  intros Hn Hl Hs H1 H2 h h'.
  destruct (run_repeat env who c1 n mg_genesis ltac:(cbn; lia) H1) as [Hb Hi]. subst h' h. rewrite !(run_app cfg).
  set (st := mg_run cfg mg_genesis (replicate n (Call env (Signed who) c1))) in *.
  cbn [mg_genesis mg_index] in Hi. assert (Hi' : mg_index st = 65535) by lia. clear Hi. cbn [mg_genesis mg_block] in Hb.
  rewrite (dispatch_block_only cfg Hmax _ _ st) in H1 by (by rewrite Hb).
  destruct (mg_dispatch cfg env st (Signed who) c1) as [st1|] eqn:E1; [|done].
  change (mg_run cfg st [?x]) with (mg_step cfg st x). change (mg_run cfg ?s [?x]) with (mg_step cfg s x).
  assert (Hst : mg_step cfg st (Call env (Signed who) c1) = st1) by (cbn [mg_step]; by rewrite E1). rewrite Hst.
  apply dispatch_ok in E1 as (w & m1 & [= <-] & -> & Hm1 & _); [|done].
  rewrite (dispatch_block_only cfg Hmax _ _ (posted st (call_schema c1) m1)) in H2 by (by cbn; rewrite Hb).
  cbn [mg_step]. destruct (mg_dispatch cfg env (posted st (call_schema c1) m1) (Signed who) c2) as [st2|] eqn:E2; [|done].
  apply dispatch_ok in E2 as (w & m2 & [= <-] & -> & Hm2 & _); [|done].
  exists m1, m2. split; [apply Hm1|]. split; [apply Hm2|]. cbn [posted mg_messages mg_block mg_index].
  rewrite Hb, Hi', <- Hs. change (sat_add u16_max 65535 1) with 65535. by rewrite !lookup_insert.
Qed.
End overflow.

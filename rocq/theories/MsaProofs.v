(** Proofs about the MSA pallet. *)
From Verif Require Import Prelude Scale SigModel MsaModel MsaSpec.

Section proofs.
Context (cfg : MsaCfg).

(** What a successful dispatch can do to the key maps, the id counter and the log. *)
Inductive key_effect (env : MsaEnv) (st st' : MsaState) (o : Origin) (call : MsaCall) : Prop :=
| KE_same :
    ms_keys st' = ms_keys st -> ms_count st' = ms_count st -> ms_max st' = ms_max st ->
    ms_log st' = ms_log st -> key_effect env st st' o call
| KE_create (key : N) :
    (o = Signed key /\ call = Create \/
     exists who proof pl, o = Signed who /\ call = CreateSponsored key proof pl /\
       controls st who (ap_msa pl) /\ signed_by cfg proof key (enc_add_provider pl)) ->
    ms_keys st !! key = None ->
    ms_max st + 1 <= u64_max ->
    ms_max st' = ms_max st + 1 ->
    key_count st (ms_max st + 1) + 1 <= u8_max -> key_count st (ms_max st + 1) + 1 <= c_max_keys cfg ->
    ms_keys st' = <[key := ms_max st + 1]> (ms_keys st) ->
    ms_count st' = <[ms_max st + 1 := key_count st (ms_max st + 1) + 1]> (ms_count st) ->
    ms_log st' = ms_log st ++ [(e_block env, EvMsaCreated (ms_max st + 1) key)] ->
    key_effect env st st' o call
| KE_add (who okey op np : N) (p : AddKeyData) :
    o = Signed who -> call = AddPublicKey okey op np p ->
    signed_by cfg op okey (enc_add_key p) -> signed_by cfg np (ak_key p) (enc_add_key p) ->
    controls st okey (ak_msa p) ->
    ms_keys st !! ak_key p = None ->
    ms_max st' = ms_max st ->
    key_count st (ak_msa p) + 1 <= u8_max -> key_count st (ak_msa p) + 1 <= c_max_keys cfg ->
    ms_keys st' = <[ak_key p := ak_msa p]> (ms_keys st) ->
    ms_count st' = <[ak_msa p := key_count st (ak_msa p) + 1]> (ms_count st) ->
    ms_log st' = ms_log st ++ [(e_block env, EvKeyAdded (ak_msa p) (ak_key p))] ->
    key_effect env st st' o call
| KE_del (who m key : N) :
    o = Signed who -> controls st who m ->
    (call = DeletePublicKey key \/ call = RetireMsa /\ key = who) ->
    is_Some (ms_keys st !! key) ->
    ms_max st' = ms_max st ->
    ms_keys st' = delete key (ms_keys st) ->
    ms_count st' = match ms_count st !! m with
                   | Some c => if c =? 1 then delete m (ms_count st)
                               else <[m := wrap_add u8_max c 255]> (ms_count st)
                   | None => ms_count st
                   end ->
    ms_log st' = ms_log st ++ [(e_block env, EvKeyDeleted m key)] ->
    key_effect env st st' o call.

Lemma register_fields env st s e st' :
  msa_register_signature cfg env st s e = Ok st' ->
  exists r, st' = set_sigs st r /\
    register_signature (c_max_sigs cfg) (c_window cfg) (ms_sigs st) (e_block env) s e = Ok r.
Proof. unfold msa_register_signature. intros H. split_matches H. eauto. Qed.

Lemma add_key_ok st m k st' :
  add_key cfg st m k = Ok st' ->
  ms_keys st !! k = None /\ key_count st m + 1 <= u8_max /\ key_count st m + 1 <= c_max_keys cfg /\
  st' = set_keys st (<[k := m]> (ms_keys st)) (<[m := key_count st m + 1]> (ms_count st)).
Proof.
  unfold add_key, chk_add. intros H. split_all H.
  repeat match goal with H : Some _ = Some _ |- _ => injection H as H; subst end.
  apply N.leb_le in E0. apply N.leb_le in E1. done.
Qed.

Lemma create_account_ok st k st' id :
  create_account cfg st k = Ok (st', id) ->
  id = ms_max st + 1 /\ ms_max st + 1 <= u64_max /\
  exists st1, add_key cfg st id k = Ok st1 /\ st' = set_max st1 id.
Proof.
  unfold create_account, get_next_msa_id, chk_add. intros H. split_all H.
  repeat match goal with H : Some _ = Some _ |- _ => injection H as H; subst end.
  repeat match goal with H : Ok _ = Ok _ |- _ => injection H as H; subst end.
  split; [congruence|]. split; [lia|]. subst. eauto.
Qed.

Lemma add_provider_ok env st p d ids st' :
  add_provider cfg env st p d ids = Ok st' ->
  ms_deleg st !! (d, p) = None /\ ensure_all_schema_ids_are_valid cfg env ids = Ok tt /\
  exists dg, try_insert_schemas cfg dg_default ids = Ok dg /\
    st' = set_deleg st (<[(d, p) := dg]> (ms_deleg st)).
Proof.
  unfold add_provider. intros H. split_all H.
  split; [done|]. split; [by destruct a|]. eauto.
Qed.

Lemma evrp_ok st dk pk p d :
  ensure_valid_registered_provider st dk pk = Ok (p, d) ->
  controls st pk p /\ controls st dk d /\ d <> p /\ is_registered_provider st p = true.
Proof.
  unfold ensure_valid_registered_provider, ensure_valid_msa_key, controls.
  intros H. split_all H.
  repeat match goal with H : (_, _) = (_, _) |- _ => injection H as H; subst end. subst.
  split; [done|]. split; [done|]. split; [lia|done].
Qed.

Lemma dispatch_key_effect env st o call st' :
  msa_dispatch cfg env st o call = Ok st' -> key_effect env st st' o call.
Proof.
  intros H. destruct call; cbn in H; unfold signed_ in H.
  - (* Create *)
    destruct o as [who|]; [|discriminate].
    destruct (create_account cfg st who) as [[st1 id]|] eqn:E; [|discriminate]. inv_ok.
    apply create_account_ok in E as (-> & Hu & st2 & Ha & ->).
    apply add_key_ok in Ha as (Hk & H8 & Hm & ->).
    eapply (KE_create _ _ _ _ _ who); try done. by left.
  - (* CreateSponsored *)
    destruct o as [who|]; [|discriminate].
    destruct (verify_signature cfg proof delegator_key _) eqn:Ev; [|discriminate].
    destruct (msa_register_signature cfg env st proof _) as [st1|] eqn:Er; [|discriminate].
    apply register_fields in Er as (r & -> & _).
    unfold ensure_valid_msa_key in H. cbn in H.
    destruct (ms_keys st !! who) as [pid|] eqn:Ew; [|discriminate].
    destruct (ap_msa payload =? pid) eqn:Ep; [|discriminate]. apply N.eqb_eq in Ep as <-.
    destruct (is_registered_provider _ _) eqn:Ereg; [|discriminate].
    destruct (create_account cfg (set_sigs st r) delegator_key) as [[st2 id]|] eqn:E; [|discriminate].
    apply create_account_ok in E as (-> & Hu & st3 & Ha & ->).
    apply add_key_ok in Ha as (Hk & H8 & Hm & ->).
    destruct (add_provider _ _ _ _ _ _) as [st4|] eqn:Eap; [|discriminate].
    apply add_provider_ok in Eap as (Hnd & Hval & dg & Hins & ->). inv_ok.
    eapply (KE_create _ _ _ _ _ delegator_key); try done.
    right. exists who, proof, payload. done.
  - (* CreateProvider *)
    unfold ensure_valid_msa_key, create_provider_for in H. split_all H. by apply KE_same.
  - (* GrantDelegation *)
    destruct o as [who|]; [|discriminate].
    destruct (verify_signature _ _ _ _); [|discriminate].
    destruct (msa_register_signature cfg env st proof _) as [st1|] eqn:Er; [|discriminate].
    apply register_fields in Er as (r & -> & _).
    destruct (ensure_valid_registered_provider _ _ _) as [[p d]|]; [|discriminate].
    unfold upsert_schema_permissions in H.
    split_all H. by apply KE_same.
  - unfold revoke_provider in H. split_all H; by apply KE_same.
  - (* AddPublicKey *)
    destruct o as [who|]; [|discriminate].
    destruct (verify_signature cfg owner_proof _ _) eqn:E1; [|discriminate].
    destruct (verify_signature cfg new_key_proof _ _) eqn:E2; [|discriminate].
    destruct (msa_register_signature cfg env st owner_proof _) as [st1|] eqn:Er; [|discriminate].
    apply register_fields in Er as (r & -> & _).
    destruct (msa_register_signature cfg env _ new_key_proof _) as [st2|] eqn:Er; [|discriminate].
    apply register_fields in Er as (r2 & -> & _).
    unfold ensure_msa_owner, ensure_valid_msa_key in H. cbn in H.
    destruct (ms_keys st !! owner_key) as [m|] eqn:Eo; [|discriminate].
    destruct (m =? ak_msa payload) eqn:Em; [|discriminate]. apply N.eqb_eq in Em as ->.
    destruct (add_key _ _ _ _) as [st3|] eqn:Ea; [|discriminate]. inv_ok.
    apply add_key_ok in Ea as (Hk & H8 & Hm & ->).
    eapply (KE_add _ _ _ _ _ who owner_key owner_proof new_key_proof payload); try done.
  - (* DeletePublicKey *)
    destruct o as [who|]; [|discriminate].
    destruct (ms_keys st !! who) as [m|] eqn:Ew; [|inv_ok; by apply KE_same].
    unfold delete_key_for_msa in H. destruct (ms_keys st !! key) eqn:Ek; [|discriminate]. inv_ok.
    eapply (KE_del _ _ _ _ _ who m key); try done. by left.
  - unfold revoke_provider in H. split_all H; by apply KE_same.
  - unfold ensure_valid_msa_key, revoke_permissions_for_schemas in H. split_all H; by apply KE_same.
  - (* RetireMsa *)
    destruct o as [who|]; [|discriminate].
    destruct (ms_keys st !! who) as [m|] eqn:Ew; [|inv_ok; by apply KE_same].
    unfold delete_key_for_msa in H. rewrite Ew in H. inv_ok.
    eapply (KE_del _ _ _ _ _ who m who); try done. by right.
  - unfold ensure_valid_msa_key in H. split_all H; by apply KE_same.
  - unfold ensure_valid_msa_key, create_provider_for in H. split_all H; by apply KE_same.
Qed.

(** Induction over histories of top-level transactions. *)
Lemma msa_run_app st h1 h2 : msa_run cfg st (h1 ++ h2) = msa_run cfg (msa_run cfg st h1) h2.
Proof. revert st; induction h1; intros; cbn; auto. Qed.

Lemma msa_tx_cases env st o call :
  msa_tx cfg env st o call = st \/
  exists st', msa_validate env st o call = Ok tt /\ msa_dispatch cfg env st o call = Ok st' /\
    msa_tx cfg env st o call = st'.
Proof.
  unfold msa_tx, msa_call. destruct (msa_validate env st o call) as [[]|]; [|by left].
  destruct (msa_dispatch cfg env st o call) as [st'|]; [|by left]. right. by exists st'.
Qed.

Lemma msa_step_cases st x :
  msa_step cfg st x = st \/
  exists st', (s_top x = true -> msa_validate (s_env x) st (s_origin x) (s_call x) = Ok tt) /\
    msa_dispatch cfg (s_env x) st (s_origin x) (s_call x) = Ok st' /\ msa_step cfg st x = st'.
Proof.
  unfold msa_step. destruct (s_top x).
  - destruct (msa_tx_cases (s_env x) st (s_origin x) (s_call x)) as [?|(st' & ? & ? & ?)]; [by left|].
    right. by exists st'.
  - unfold msa_call. destruct (msa_dispatch _ _ _ _ _) as [st'|]; [|by left]. right. by exists st'.
Qed.

Lemma msa_run_ind (P : MsaState -> Prop) st :
  P st ->
  (forall env st o call st', P st -> msa_dispatch cfg env st o call = Ok st' -> P st') ->
  forall h, P (msa_run cfg st h).
Proof.
  intros H0 Hs h. revert st H0. induction h as [|x h IH]; intros st H0; [done|].
  cbn. apply IH. destruct (msa_step_cases st x) as [->|(st' & _ & Hd & ->)]; [done|].
  eauto.
Qed.

Lemma msa_run_top_ind (P : MsaState -> Prop) st :
  P st ->
  (forall env st o call st', P st -> msa_validate env st o call = Ok tt ->
     msa_dispatch cfg env st o call = Ok st' -> P st') ->
  forall h, all_top h -> P (msa_run cfg st h).
Proof.
  intros H0 Hs h. revert st H0. induction h as [|x h IH]; intros st H0 Ht; [done|].
  inversion Ht; subst. cbn. apply IH; [|done].
  destruct (msa_step_cases st x) as [->|(st' & Hv & Hd & ->)]; [done|]. eauto.
Qed.

(** ** Ids *)
Definition ids_inv (st : MsaState) : Prop :=
  StronglySorted N.lt (created_ids (ms_log st)) /\
  (forall m, m ∈ created_ids (ms_log st) <-> 1 <= m <= ms_max st) /\
  (forall k m, controls st k m -> issued st m).

Lemma created_ids_app l l' : created_ids (l ++ l') = created_ids l ++ created_ids l'.
Proof. unfold created_ids. apply omap_app. Qed.

Lemma StronglySorted_snoc (l : list N) x :
  StronglySorted N.lt l -> (forall y, y ∈ l -> y < x) -> StronglySorted N.lt (l ++ [x]).
Proof.
  induction l as [|a l IH]; intros Hs Hx; cbn.
  - constructor; [constructor|constructor].
  - inversion Hs; subst. constructor.
    + apply IH; [done|]. intros y Hy. apply Hx. by right.
    + apply Forall_app. split; [done|]. constructor; [|constructor]. apply Hx. left.
Qed.

Lemma ids_inv_genesis : ids_inv msa_genesis.
Proof.
  split; [constructor|]. split.
  - intros m. cbn. rewrite elem_of_nil. lia.
  - intros k m H. unfold controls in H. cbn in H. by rewrite lookup_empty in H.
Qed.

Lemma ids_inv_step env st o call st' :
  ids_inv st -> msa_dispatch cfg env st o call = Ok st' -> ids_inv st'.
Proof.
  intros (Hs & Hm & Hc) Hd. apply dispatch_key_effect in Hd. destruct Hd.
  - unfold ids_inv, controls, issued in *. rewrite H, H1, H2. done.
  - assert (Hids : created_ids (ms_log st') = created_ids (ms_log st) ++ [ms_max st + 1]).
    { rewrite H7, created_ids_app. done. }
    unfold ids_inv, issued, controls in *. rewrite Hids, H5, H2. split; [|split].
    + apply StronglySorted_snoc; [done|]. intros y Hy. apply Hm in Hy. lia.
    + intros m. rewrite elem_of_app, Hm, elem_of_list_singleton. lia.
    + intros k m. rewrite lookup_insert_Some, elem_of_app, elem_of_list_singleton.
      intros [[<- <-]|[Hne Hk]]; [by right|left; by eapply Hc].
  - assert (Hids : created_ids (ms_log st') = created_ids (ms_log st)).
    { rewrite H10, created_ids_app. cbn. by rewrite app_nil_r. }
    unfold ids_inv, issued, controls in *. rewrite Hids, H8, H5. split; [done|]. split; [done|].
    intros k m. rewrite lookup_insert_Some. intros [[<- <-]|[Hne Hk]]; [by eapply Hc|by eapply Hc].
  - assert (Hids : created_ids (ms_log st') = created_ids (ms_log st)).
    { rewrite H6, created_ids_app. cbn. by rewrite app_nil_r. }
    unfold ids_inv, issued, controls in *. rewrite Hids, H4, H3. split; [done|]. split; [done|].
    intros k m'. rewrite lookup_delete_Some. intros [_ Hk]. by eapply Hc.
Qed.

Lemma ids_inv_run h : ids_inv (msa_run cfg msa_genesis h).
Proof.
  apply msa_run_ind; [apply ids_inv_genesis|]. intros; eapply ids_inv_step; eauto.
Qed.

Lemma issued_le h m : issued (msa_run cfg msa_genesis h) m <-> 1 <= m <= ms_max (msa_run cfg msa_genesis h).
Proof. destruct (ids_inv_run h) as (_ & Hm & _). apply Hm. Qed.

(** ** Key counts *)
(** keys controlling [m] as a finite map *)
Definition kmap (keys : gmap N N) (m : N) : gmap N N := filter (fun kv => kv.2 = m) keys.

Definition count_inv (st : MsaState) : Prop :=
  forall m, key_count st m = N.of_nat (size (kmap (ms_keys st) m)) /\
            ms_count st !! m <> Some 0 /\
            key_count st m <= c_max_keys cfg /\ key_count st m <= u8_max.

Lemma kmap_insert_eq keys k m :
  keys !! k = None -> size (kmap (<[k := m]> keys) m) = S (size (kmap keys m)).
Proof.
  intros Hk. unfold kmap. rewrite map_filter_insert_True by done.
  apply map_size_insert_None. apply map_filter_lookup_None. by left.
Qed.

Lemma kmap_insert_ne keys k m m' :
  keys !! k = None -> m <> m' -> kmap (<[k := m]> keys) m' = kmap keys m'.
Proof.
  intros Hk Hm. unfold kmap. rewrite map_filter_insert_False by done.
  by rewrite delete_notin.
Qed.

Lemma kmap_delete_eq keys k m :
  keys !! k = Some m -> size (kmap keys m) = S (size (kmap (delete k keys) m)).
Proof.
  intros Hk. rewrite <- (insert_delete keys k m) at 1 by done.
  apply kmap_insert_eq. apply lookup_delete.
Qed.

Lemma kmap_delete_ne keys k m m' :
  keys !! k = Some m -> m <> m' -> kmap (delete k keys) m' = kmap keys m'.
Proof.
  intros Hk Hm. rewrite <- (insert_delete keys k m) at 2 by done.
  rewrite kmap_insert_ne; [done| |done]. apply lookup_delete.
Qed.

Lemma key_count_insert st ks m c m' :
  key_count (set_keys st ks (<[m := c]> (ms_count st))) m' = if decide (m = m') then c else key_count st m'.
Proof.
  unfold key_count. cbn. destruct (decide (m = m')) as [->|Hne].
  - by rewrite lookup_insert.
  - by rewrite lookup_insert_ne.
Qed.

Lemma validate_del env st who call key m :
  msa_validate env st (Signed who) call = Ok tt ->
  controls st who m -> (call = DeletePublicKey key \/ call = RetireMsa /\ key = who) ->
  controls st key m /\
  (call = DeletePublicKey key -> who <> key) /\
  (call = RetireMsa -> key_count st m = 1 /\ is_registered_provider st m = false /\
                       has_active_delegations env st m = false /\ e_has_handle env m = false).
Proof.
  unfold controls. intros Hv Hc [->|[-> ->]]; cbn in Hv.
  - unfold validate_key_delete in Hv. rewrite Hc in Hv. split_all Hv.
    apply negb_true_iff, N.eqb_neq in E. apply N.eqb_eq in E1 as ->.
    split; [done|]. split; [done|]. intros; discriminate.
  - unfold ensure_msa_can_retire in Hv. rewrite Hc in Hv. split_all Hv.
    split; [done|]. split; [intros; discriminate|]. intros _.
    apply negb_true_iff in E, E0, E2. repeat split; try done. lia.
Qed.

Lemma count_inv_genesis : count_inv msa_genesis.
Proof.
  intros m. unfold key_count, kmap. cbn. rewrite lookup_empty, map_filter_empty, map_size_empty.
  cbn. split; [done|]. split; [done|]. split; lia.
Qed.

Lemma count_inv_add st st' k m :
  count_inv st -> ms_keys st !! k = None ->
  key_count st m + 1 <= u8_max -> key_count st m + 1 <= c_max_keys cfg ->
  ms_keys st' = <[k := m]> (ms_keys st) ->
  ms_count st' = <[m := key_count st m + 1]> (ms_count st) -> count_inv st'.
Proof.
  intros Hi Hk H8 Hm Hks Hcs m'. specialize (Hi m') as (Hc & Hz & Hmx & H8').
  unfold key_count in *. rewrite Hks, Hcs. destruct (decide (m = m')) as [->|Hne].
  - rewrite lookup_insert. cbn. rewrite kmap_insert_eq by done. rewrite Hc. split; [lia|].
    split; [injection 1; lia|]. split; lia.
  - rewrite lookup_insert_ne by done. rewrite kmap_insert_ne by done. done.
Qed.

Lemma count_inv_step env st o call st' :
  count_inv st -> msa_validate env st o call = Ok tt ->
  msa_dispatch cfg env st o call = Ok st' -> count_inv st'.
Proof.
  intros Hi Hv Hd. apply dispatch_key_effect in Hd. destruct Hd.
  - intros m. specialize (Hi m). unfold key_count in *. rewrite H, H0. done.
  - eapply count_inv_add; eauto.
  - eapply count_inv_add; eauto.
  - subst o. destruct (validate_del _ _ _ _ _ _ Hv H0 H1) as (Hk & _ & _).
    unfold controls in Hk. intros m'.
    pose proof (Hi m) as (Hc & Hz & Hmx & H8).
    assert (Hpos : 1 <= key_count st m).
    { rewrite Hc, (kmap_delete_eq _ _ _ Hk). lia. }
    unfold key_count in *. rewrite H4, H5.
    destruct (ms_count st !! m) as [c|] eqn:Ec; cbn in *; [|lia].
    destruct (decide (m = m')) as [<-|Hne].
    + pose proof (kmap_delete_eq _ _ _ Hk) as Hsz.
      destruct (c =? 1) eqn:E1.
      * rewrite lookup_delete. cbn. split; [lia|]. split; [done|]. split; lia.
      * rewrite lookup_insert. cbn. unfold wrap_add.
        assert (Hw : (c + 255) mod (u8_max + 1) = c - 1).
        { unfold u8_max in *. replace (c + 255) with (c - 1 + 1 * (255 + 1)) by lia.
          rewrite N.mod_add by lia. apply N.mod_small. lia. }
        rewrite Hw. split; [lia|]. split; [injection 1; lia|]. split; lia.
    + rewrite (kmap_delete_ne _ _ _ _ Hk Hne).
      replace ((if c =? 1 then delete m (ms_count st) else <[m:=wrap_add u8_max c 255]> (ms_count st)) !! m')
        with (ms_count st !! m').
      * apply Hi.
      * destruct (c =? 1); [by rewrite lookup_delete_ne|by rewrite lookup_insert_ne].
Qed.

Lemma count_inv_run h : all_top h -> count_inv (msa_run cfg msa_genesis h).
Proof. apply msa_run_top_ind; [apply count_inv_genesis|]. intros; eapply count_inv_step; eauto. Qed.

Lemma keys_listing_exists st m : keys_listing st m (map_to_list (kmap (ms_keys st) m)).*1.
Proof.
  split; [apply NoDup_fst_map_to_list|].
  intros k. unfold controls. rewrite elem_of_list_fmap. split.
  - intros [[k' v] [-> Hin]]. apply elem_of_map_to_list in Hin. cbn.
    apply map_filter_lookup_Some in Hin as [Hk Hv]. cbn in Hv. by subst.
  - intros Hk. exists (k, m). split; [done|]. apply elem_of_map_to_list.
    apply map_filter_lookup_Some. done.
Qed.

Lemma keys_listing_unique st m l l' : keys_listing st m l -> keys_listing st m l' -> length l = length l'.
Proof.
  intros [Hn Hl] [Hn' Hl']. apply Permutation_length, NoDup_Permutation; try done.
  intros x. by rewrite Hl, Hl'.
Qed.

Lemma key_count_lemma h m l :
  all_top h -> keys_listing (msa_run cfg msa_genesis h) m l ->
  key_count (msa_run cfg msa_genesis h) m = len l /\ len l <= c_max_keys cfg.
Proof.
  intros Ht Hl. destruct (count_inv_run h Ht m) as (Hc & _ & Hm & _).
  pose proof (keys_listing_unique _ _ _ _ Hl (keys_listing_exists _ m)) as Hlen.
  rewrite fmap_length in Hlen. unfold size, map_size in Hc. unfold len. rewrite Hlen.
  split; [done|]. rewrite <- Hc. done.
Qed.

(** ** C06 *)
Lemma attach_lemma env st o call st' k m :
  msa_dispatch cfg env st o call = Ok st' -> controls st' k m -> ~ controls st k m ->
  (m = ms_max st + 1 /\ ms_max st' = m /\
   (o = Signed k /\ call = Create \/
    exists who proof pl, o = Signed who /\ call = CreateSponsored k proof pl /\
      controls st who (ap_msa pl) /\ signed_by cfg proof k (enc_add_provider pl))) \/
  (exists who okey op np p, o = Signed who /\ call = AddPublicKey okey op np p /\
     ak_msa p = m /\ ak_key p = k /\ controls st okey m /\
     signed_by cfg op okey (enc_add_key p) /\ signed_by cfg np k (enc_add_key p)).
Proof.
  intros Hd Hc Hn. apply dispatch_key_effect in Hd. unfold controls in *. destruct Hd.
  - congruence.
  - rewrite H5 in Hc. apply lookup_insert_Some in Hc as [[<- <-]|[? ?]]; [|done].
    left. done.
  - rewrite H8 in Hc. apply lookup_insert_Some in Hc as [[<- <-]|[? ?]]; [|done].
    right. exists who, okey, op, np, p. done.
  - rewrite H4 in Hc. apply lookup_delete_Some in Hc as [? ?]. done.
Qed.

(** ** C07 *)
Lemma detach_lemma h env o call k m :
  let st := msa_run cfg msa_genesis h in
  let st' := msa_tx cfg env st o call in
  all_top h -> controls st k m -> ~ controls st' k m ->
  exists who, o = Signed who /\ controls st who m /\
    (call = DeletePublicKey k /\ who <> k \/
     call = RetireMsa /\ who = k /\ forall k', controls st k' m -> k' = k).
Proof.
  intros st st' Ht Hc Hn. subst st'.
  destruct (msa_tx_cases env st o call) as [Heq|(st' & Hv & Hd & Heq)]; rewrite Heq in Hn; [done|].
  apply dispatch_key_effect in Hd. unfold controls in *. destruct Hd.
  - congruence.
  - rewrite H5 in Hn. exfalso. apply Hn. apply lookup_insert_Some. right. split; congruence.
  - rewrite H8 in Hn. exfalso. apply Hn. apply lookup_insert_Some. right. split; congruence.
  - rewrite H4 in Hn. subst o.
    destruct (decide (key = k)) as [->|Hne].
    2:{ exfalso. apply Hn. by rewrite lookup_delete_ne. }
    destruct (validate_del _ _ _ _ _ _ Hv H0 H1) as (Hk & Hd & Hr). unfold controls in Hk.
    assert (m0 = m) as -> by congruence.
    exists who. split; [done|]. split; [done|].
    destruct H1 as [->|[-> ->]].
    + left. split; [done|]. by apply Hd.
    + right. split; [done|]. split; [done|]. intros k' Hk'.
      destruct (Hr eq_refl) as [Hone _].
      pose proof (count_inv_run h Ht m) as (Hcount & _). fold st in Hcount.
      rewrite Hone in Hcount.
      destruct (decide (k' = who)) as [|Hne]; [done|]. exfalso.
      assert (Hk2 : delete who (ms_keys st) !! k' = Some m) by (by rewrite lookup_delete_ne).
      pose proof (kmap_delete_eq _ _ _ Hk) as S1.
      pose proof (kmap_delete_eq _ _ _ Hk2) as S2. lia.
Qed.

(** ** C08 *)
Lemma retired_lemma h1 h2 m k :
  let st := msa_run cfg msa_genesis h1 in
  issued st m -> (forall k', ~ controls st k' m) -> ~ controls (msa_run cfg st h2) k m.
Proof.
  intros st Hi Hn.
  enough (Hx : m <= ms_max (msa_run cfg st h2) /\ forall k', ~ controls (msa_run cfg st h2) k' m) by (by apply Hx).
  apply msa_run_ind.
  - split; [|done]. apply issued_le in Hi. fold st in Hi. lia.
  - intros env s o call s' [Hm Hk] Hd. split.
    + apply dispatch_key_effect in Hd. destruct Hd; lia.
    + intros k' Hk'.
      destruct (attach_lemma _ _ _ _ _ _ _ Hd Hk' (Hk k')) as [[-> _]|(who & okey & op & np & p & _ & _ & _ & _ & Ho & _)].
      * lia.
      * by apply (Hk okey).
Qed.

(** ** C09 *)
Lemma dispatch_prov env st o call st' :
  msa_dispatch cfg env st o call = Ok st' ->
  ms_prov st' = ms_prov st \/
  exists m name, ms_prov st !! m = None /\ ms_prov st' = <[m := name]> (ms_prov st) /\
    len name <= c_max_name cfg /\ (exists k, controls st k m) /\ ms_keys st' = ms_keys st /\
    ms_count st' = ms_count st /\
    (o = Gov /\ (exists key, call = CreateProviderViaGovernance key name /\ controls st key m) \/
     exists who, o = Signed who /\ controls st who m /\ call = CreateProvider name).
Proof.
  intros H. destruct call; cbn in H; unfold signed_ in H.
  - destruct o as [who|]; [|discriminate].
    destruct (create_account cfg st who) as [[st1 id]|] eqn:E; [|discriminate]. inv_ok.
    apply create_account_ok in E as (-> & Hu & st2 & Ha & ->).
    apply add_key_ok in Ha as (Hk & H8 & Hm & ->). by left.
  - destruct o as [who|]; [|discriminate].
    destruct (verify_signature cfg proof delegator_key _) eqn:Ev; [|discriminate].
    destruct (msa_register_signature cfg env st proof _) as [st1|] eqn:Er; [|discriminate].
    apply register_fields in Er as (r & -> & _).
    destruct (ensure_valid_msa_key _ _); [|discriminate].
    destruct (ap_msa payload =? a) eqn:Ep; [|discriminate].
    destruct (is_registered_provider _ _) eqn:Ereg; [|discriminate].
    destruct (create_account cfg (set_sigs st r) delegator_key) as [[st2 id]|] eqn:E; [|discriminate].
    apply create_account_ok in E as (-> & Hu & st3 & Ha & ->).
    apply add_key_ok in Ha as (Hk & H8 & Hm & ->).
    destruct (add_provider _ _ _ _ _ _) as [st4|] eqn:Eap; [|discriminate].
    apply add_provider_ok in Eap as (Hnd & Hval & dg & Hins & ->). inv_ok. by left.
  - unfold ensure_valid_msa_key, create_provider_for in H. split_all H.
    right. eexists _, _. split; [done|]. split; [done|]. split; [lia|]. split; [by eexists|].
    split; [done|]. split; [done|]. right. by eexists.
  - destruct o as [who|]; [|discriminate].
    destruct (verify_signature _ _ _ _); [|discriminate].
    destruct (msa_register_signature cfg env st proof _) as [st1|] eqn:Er; [|discriminate].
    apply register_fields in Er as (r & -> & _).
    destruct (ensure_valid_registered_provider _ _ _) as [[p d]|]; [|discriminate].
    unfold upsert_schema_permissions in H. split_all H. by left.
  - unfold revoke_provider in H. split_all H; by left.
  - destruct o as [who|]; [|discriminate].
    destruct (verify_signature cfg owner_proof _ _) eqn:E1; [|discriminate].
    destruct (verify_signature cfg new_key_proof _ _) eqn:E2; [|discriminate].
    destruct (msa_register_signature cfg env st owner_proof _) as [st1|] eqn:Er; [|discriminate].
    apply register_fields in Er as (r & -> & _).
    destruct (msa_register_signature cfg env _ new_key_proof _) as [st2|] eqn:Er; [|discriminate].
    apply register_fields in Er as (r2 & -> & _).
    destruct (ensure_msa_owner _ _ _); [|discriminate].
    destruct (add_key _ _ _ _) as [st3|] eqn:Ea; [|discriminate]. inv_ok.
    apply add_key_ok in Ea as (Hk & H8 & Hm & ->). by left.
  - unfold delete_key_for_msa in H. split_all H; by left.
  - unfold revoke_provider in H. split_all H; by left.
  - unfold ensure_valid_msa_key, revoke_permissions_for_schemas in H. split_all H; by left.
  - unfold delete_key_for_msa in H. split_all H; by left.
  - unfold ensure_valid_msa_key in H. split_all H; by left.
  - unfold ensure_valid_msa_key, create_provider_for in H. split_all H.
    right. eexists _, _. split; [done|]. split; [done|]. split; [lia|]. split; [by eexists|].
    split; [done|]. split; [done|]. left. split; [done|]. by eexists.
Qed.

Definition prov_inv (st : MsaState) : Prop :=
  forall m name, ms_prov st !! m = Some name ->
    len name <= c_max_name cfg /\ exists k, controls st k m.

Lemma prov_inv_step env st o call st' :
  count_inv st -> prov_inv st -> msa_validate env st o call = Ok tt ->
  msa_dispatch cfg env st o call = Ok st' -> prov_inv st'.
Proof.
  intros Hci Hi Hv Hd m name Hm.
  pose proof (dispatch_prov _ _ _ _ _ Hd) as [Hp|(m' & n' & Hnone & Hp & Hl & Hk & Hks & _)].
  - rewrite Hp in Hm. destruct (Hi _ _ Hm) as [Hl [k Hk]]. split; [done|].
    apply dispatch_key_effect in Hd. unfold controls in *. destruct Hd.
    + exists k. congruence.
    + exists k. rewrite H5, lookup_insert_ne by congruence. done.
    + exists k. rewrite H8, lookup_insert_ne by congruence. done.
    + subst o. destruct (validate_del _ _ _ _ _ _ Hv H0 H1) as (Hkk & Hdel & Hr). unfold controls in *.
      rewrite H4. destruct (decide (key = k)) as [->|Hne]; [|exists k; by rewrite lookup_delete_ne].
      assert (m0 = m) as -> by congruence.
      destruct H1 as [->|[-> ->]].
      * exists who. rewrite lookup_delete_ne; [done|]. intros ->. by apply (Hdel eq_refl).
      * destruct (Hr eq_refl) as (_ & Hreg & _). unfold is_registered_provider in Hreg.
        rewrite Hm in Hreg. discriminate.
  - rewrite Hp in Hm. unfold controls in *. apply lookup_insert_Some in Hm as [[<- <-]|[Hne Hm]].
    + split; [done|]. destruct Hk as [k Hk]. exists k. by rewrite Hks.
    + destruct (Hi _ _ Hm) as [? [k' ?]]. split; [done|]. exists k'. by rewrite Hks.
Qed.

Lemma prov_inv_run h : all_top h -> count_inv (msa_run cfg msa_genesis h) /\ prov_inv (msa_run cfg msa_genesis h).
Proof.
  apply (msa_run_top_ind (fun s => count_inv s /\ prov_inv s)).
  - split; [apply count_inv_genesis|]. intros m name H. cbn in H. by rewrite lookup_empty in H.
  - intros env st o call st' [H1 H2] Hv Hd. split; [by eapply count_inv_step|by eapply prov_inv_step].
Qed.

Lemma prov_stays st h m name :
  ms_prov st !! m = Some name -> ms_prov (msa_run cfg st h) !! m = Some name.
Proof.
  intros H. apply (msa_run_ind (fun s => ms_prov s !! m = Some name)); [done|].
  intros env s o call s' Hs Hd.
  destruct (dispatch_prov _ _ _ _ _ Hd) as [Hp|(m' & n' & Hnone & Hp & _)]; rewrite Hp; [done|].
  rewrite lookup_insert_ne; [done|]. intros ->. congruence.
Qed.

Lemma provider_lemma h1 h2 m name :
  let st := msa_run cfg msa_genesis h1 in
  all_top (h1 ++ h2) -> ms_prov st !! m = Some name ->
  ms_prov (msa_run cfg st h2) !! m = Some name /\ len name <= c_max_name cfg /\
  exists k, controls (msa_run cfg st h2) k m.
Proof.
  intros st Ht H. pose proof (prov_stays st h2 _ _ H) as Hs. split; [done|].
  unfold st in *. rewrite <- msa_run_app in *.
  destruct (prov_inv_run (h1 ++ h2) Ht) as [_ Hi]. by apply Hi in Hs.
Qed.

Lemma names_run h m name :
  ms_prov (msa_run cfg msa_genesis h) !! m = Some name -> len name <= c_max_name cfg.
Proof.
  revert m name. apply (msa_run_ind (fun s => forall m name, ms_prov s !! m = Some name -> len name <= c_max_name cfg)).
  - intros m name H. cbn in H. by rewrite lookup_empty in H.
  - intros env s o call s' Hs Hd m name H.
    destruct (dispatch_prov _ _ _ _ _ Hd) as [Hp|(m' & n' & Hnone & Hp & Hl & _)]; rewrite Hp in H; [by eapply Hs|].
    apply lookup_insert_Some in H as [[<- <-]|[_ H]]; [done|by eapply Hs].
Qed.

Lemma provider_stays_lemma h1 h2 m name :
  let st := msa_run cfg msa_genesis h1 in
  ms_prov st !! m = Some name ->
  ms_prov (msa_run cfg st h2) !! m = Some name /\ len name <= c_max_name cfg.
Proof. intros st H. split; [by apply prov_stays|by eapply names_run]. Qed.

Lemma detach_any_lemma st env o call k m :
  controls st k m -> ~ controls (msa_tx cfg env st o call) k m ->
  exists who, o = Signed who /\ controls st who m /\
    (call = DeletePublicKey k /\ who <> k \/ call = RetireMsa /\ who = k).
Proof.
  intros Hc Hn.
  destruct (msa_tx_cases env st o call) as [Heq|(st' & Hv & Hd & Heq)]; rewrite Heq in Hn; [done|].
  apply dispatch_key_effect in Hd. unfold controls in *. destruct Hd.
  - congruence.
  - rewrite H5 in Hn. exfalso. apply Hn. apply lookup_insert_Some. right. split; congruence.
  - rewrite H8 in Hn. exfalso. apply Hn. apply lookup_insert_Some. right. split; congruence.
  - rewrite H4 in Hn. subst o.
    destruct (decide (key = k)) as [->|Hne].
    2:{ exfalso. apply Hn. by rewrite lookup_delete_ne. }
    destruct (validate_del _ _ _ _ _ _ Hv H0 H1) as (Hk & Hd & Hr). unfold controls in Hk.
    assert (m0 = m) as -> by congruence.
    exists who. split; [done|]. split; [done|].
    destruct H1 as [->|[-> ->]]; [left|right; done]. split; [done|]. by apply Hd.
Qed.

End proofs.

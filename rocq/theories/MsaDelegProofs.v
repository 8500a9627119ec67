(** Proofs about delegations. *)
From Verif Require Import Prelude Scale SigModel MsaModel MsaSpec MsaProofs.

Section proofs.
Context (cfg : MsaCfg).

(** ** The map updates *)
Lemma try_get_mut_schemas_ok ids b : forall d d',
  try_get_mut_schemas d ids b = Ok d' ->
  dg_revoked d' = dg_revoked d /\
  (forall k, k ∈ ids -> is_Some (dg_perms d !! k)) /\
  dom (dg_perms d') = dom (dg_perms d) /\
  (forall k, dg_perms d' !! k = if decide (k ∈ ids) then Some b else dg_perms d !! k).
Proof.
  induction ids as [|i ids IH]; intros d d' H; cbn in H.
  - inv_ok. split; [done|]. split; [intros k Hk; by apply elem_of_nil in Hk|]. split; [done|].
    intros k. rewrite decide_False; [done|apply not_elem_of_nil].
  - unfold try_get_mut_schema in H. destruct (dg_perms d !! i) eqn:Ei; [|discriminate].
    apply IH in H as (Hr & Hs & Hd & Hk). cbn in *. split; [done|].
    assert (Hdom : dom (<[i := b]> (dg_perms d)) = dom (dg_perms d)).
    { rewrite dom_insert_L. apply elem_of_dom_2 in Ei. set_solver. }
    split; [|split].
    + intros k Hin. apply elem_of_cons in Hin as [->|Hin]; [by rewrite Ei|].
      apply Hs in Hin. apply elem_of_dom. apply elem_of_dom in Hin. by rewrite Hdom in Hin.
    + by rewrite Hd.
    + intros k. rewrite Hk. destruct (decide (k ∈ ids)) as [Hin|Hin].
      * by rewrite decide_True by (by right).
      * destruct (decide (k = i)) as [->|Hne].
        -- rewrite lookup_insert. by rewrite decide_True by left.
        -- rewrite lookup_insert_ne by done. rewrite decide_False; [done|].
           intros Hc. apply elem_of_cons in Hc as [?|?]; done.
Qed.

Lemma try_insert_schemas_ok ids : forall d d',
  try_insert_schemas cfg d ids = Ok d' ->
  dg_revoked d' = dg_revoked d /\
  (N.of_nat (size (dg_perms d)) <= c_max_grants cfg -> N.of_nat (size (dg_perms d')) <= c_max_grants cfg) /\
  (forall k, dg_perms d' !! k = if decide (k ∈ ids) then Some 0 else dg_perms d !! k).
Proof.
  induction ids as [|i ids IH]; intros d d' H; cbn in H.
  - inv_ok. split; [done|]. split; [done|].
    intros k. rewrite decide_False; [done|apply not_elem_of_nil].
  - unfold try_insert_schema in H.
    destruct ((_ <? _) || _) eqn:Eb; [|discriminate].
    apply IH in H as (Hr & Hs & Hk). cbn in *. split; [done|]. split.
    + intros Hsz. apply Hs. destruct (dg_perms d !! i) eqn:Ei.
      * rewrite map_size_insert_Some by (rewrite Ei; done). done.
      * rewrite map_size_insert_None by done.
        apply orb_true_iff in Eb as [Eb|Eb]; [lia|].
        apply bool_decide_eq_true in Eb. by destruct Eb.
    + intros k. rewrite Hk. destruct (decide (k ∈ ids)) as [Hin|Hin].
      * by rewrite decide_True by (by right).
      * destruct (decide (k = i)) as [->|Hne].
        -- rewrite lookup_insert. by rewrite decide_True by left.
        -- rewrite lookup_insert_ne by done. rewrite decide_False; [done|].
           intros Hc. apply elem_of_cons in Hc as [?|?]; done.
Qed.

Definition schemas_valid (env : MsaEnv) (ids : list N) : Prop :=
  len ids <= c_max_grants cfg /\ forall s, s ∈ ids -> s <= e_max_schema env.

Lemma ensure_ids_ok env ids u :
  ensure_all_schema_ids_are_valid cfg env ids = Ok u -> schemas_valid env ids.
Proof.
  unfold ensure_all_schema_ids_are_valid. intros H. split_all H.
  split; [lia|]. intros s Hs. apply elem_of_list_In in Hs.
  rewrite forallb_forall in E0. specialize (E0 _ Hs). lia.
Qed.

(** What [upsert_schema_permissions] does to the permission map. *)
Definition upserted (block : N) (ids : list N) (old new : gmap N N) : Prop :=
  forall k, new !! k = if decide (k ∈ ids) then Some 0
                       else if decide (old !! k = Some 0) then Some block else old !! k.

Lemma upsert_ok env st p d ids st' :
  upsert_schema_permissions cfg env st p d ids = Ok st' ->
  let old := default dg_default (ms_deleg st !! (d, p)) in
  schemas_valid env ids /\
  exists new, st' = set_deleg st (<[(d, p) := {| dg_revoked := 0; dg_perms := new |}]> (ms_deleg st)) /\
    upserted (e_block env) ids (dg_perms old) new /\
    (N.of_nat (size (dg_perms old)) <= c_max_grants cfg -> N.of_nat (size new) <= c_max_grants cfg).
Proof.
  intros H old. unfold upsert_schema_permissions in H. fold old in H.
  destruct (ensure_all_schema_ids_are_valid cfg env ids) as [u|] eqn:Ev; [|discriminate].
  apply ensure_ids_ok in Ev. split; [done|].
  set (rids := filter _ (map_to_list (dg_perms old)).*1) in H.
  set (uids := filter (fun k => is_Some _) ids) in H.
  set (iids := filter _ ids) in H.
  destruct (try_get_mut_schemas old rids (e_block env)) as [d1|] eqn:E1; [|discriminate].
  destruct (try_get_mut_schemas d1 uids 0) as [d2|] eqn:E2; [|discriminate].
  destruct (try_insert_schemas cfg d2 iids) as [d3|] eqn:E3; [|discriminate].
  injection H as <-.
  apply try_get_mut_schemas_ok in E1 as (_ & _ & Hd1 & Hk1).
  apply try_get_mut_schemas_ok in E2 as (_ & _ & Hd2 & Hk2).
  apply try_insert_schemas_ok in E3 as (_ & Hs3 & Hk3).
  exists (dg_perms d3). split; [done|]. split.
  - intros k. rewrite Hk3, Hk2, Hk1.
    destruct (decide (k ∈ ids)) as [Hin|Hin].
    + destruct (dg_perms old !! k) eqn:Ek.
      * assert (k ∈ uids) by (apply elem_of_list_filter; split; [by rewrite Ek|done]).
        destruct (decide (k ∈ iids)); [done|]. by rewrite decide_True.
      * rewrite decide_True; [done|]. by apply elem_of_list_filter.
    + rewrite decide_False; [|intros Hc; by apply elem_of_list_filter in Hc as [_ ?]].
      rewrite decide_False; [|intros Hc; by apply elem_of_list_filter in Hc as [_ ?]].
      destruct (decide (dg_perms old !! k = Some 0)) as [Hz|Hz].
      * rewrite decide_True; [done|]. apply elem_of_list_filter. split; [done|].
        apply elem_of_list_fmap. exists (k, 0). split; [done|]. by apply elem_of_map_to_list.
      * rewrite decide_False; [done|]. intros Hc. apply elem_of_list_filter in Hc as [[_ ?] _]. done.
  - intros Hsz. apply Hs3. rewrite <- !size_dom in *. by rewrite Hd2, Hd1.
Qed.

(** ** The effect of every call on delegations *)
Inductive deleg_effect (env : MsaEnv) (st st' : MsaState) (o : Origin) (call : MsaCall) : Prop :=
| DE_same : ms_deleg st' = ms_deleg st -> deleg_effect env st st' o call
| DE_sponsor (who key proof : N) (pl : AddProvider) (perms : gmap N N) :
    o = Signed who -> call = CreateSponsored key proof pl ->
    controls st who (ap_msa pl) -> is_registered_provider st (ap_msa pl) = true ->
    controls st' key (ms_max st + 1) ->
    signed_by cfg proof key (enc_add_provider pl) ->
    schemas_valid env (ap_schemas pl) ->
    (forall k, perms !! k = if decide (k ∈ ap_schemas pl) then Some 0 else None) ->
    N.of_nat (size perms) <= c_max_grants cfg ->
    ms_deleg st' = <[(ms_max st + 1, ap_msa pl) := {| dg_revoked := 0; dg_perms := perms |}]> (ms_deleg st) ->
    deleg_effect env st st' o call
| DE_grant (who dkey proof d : N) (pl : AddProvider) (perms : gmap N N) :
    o = Signed who -> call = GrantDelegation dkey proof pl ->
    controls st who (ap_msa pl) -> is_registered_provider st (ap_msa pl) = true ->
    controls st dkey d -> d <> ap_msa pl ->
    signed_by cfg proof dkey (enc_add_provider pl) ->
    schemas_valid env (ap_schemas pl) ->
    upserted (e_block env) (ap_schemas pl) (dg_perms (default dg_default (ms_deleg st !! (d, ap_msa pl)))) perms ->
    (N.of_nat (size (dg_perms (default dg_default (ms_deleg st !! (d, ap_msa pl))))) <= c_max_grants cfg ->
     N.of_nat (size perms) <= c_max_grants cfg) ->
    ms_deleg st' = <[(d, ap_msa pl) := {| dg_revoked := 0; dg_perms := perms |}]> (ms_deleg st) ->
    deleg_effect env st st' o call
| DE_revoke (who p d : N) (dg : Delegation) :
    o = Signed who ->
    (call = RevokeByDelegator p /\ controls st who d \/ call = RevokeByProvider d /\ controls st who p) ->
    ms_deleg st !! (d, p) = Some dg -> dg_revoked dg = 0 ->
    ms_deleg st' = <[(d, p) := {| dg_revoked := e_block env; dg_perms := dg_perms dg |}]> (ms_deleg st) ->
    deleg_effect env st st' o call
| DE_revoke_schemas (who p d : N) (ids : list N) (dg : Delegation) (perms : gmap N N) :
    o = Signed who -> call = RevokeSchemaPermissions p ids -> controls st who d ->
    ms_deleg st !! (d, p) = Some dg ->
    schemas_valid env ids ->
    dom perms = dom (dg_perms dg) ->
    (forall k, perms !! k = if decide (k ∈ ids) then Some (e_block env) else dg_perms dg !! k) ->
    ms_deleg st' = <[(d, p) := {| dg_revoked := dg_revoked dg; dg_perms := perms |}]> (ms_deleg st) ->
    deleg_effect env st st' o call.

Lemma grant_dispatch_ok env st who dkey proof pl st' :
  msa_dispatch cfg env st (Signed who) (GrantDelegation dkey proof pl) = Ok st' ->
  controls st who (ap_msa pl) /\ is_registered_provider st (ap_msa pl) = true /\
  signed_by cfg proof dkey (enc_add_provider pl) /\ schemas_valid env (ap_schemas pl) /\
  exists d perms, controls st dkey d /\ d <> ap_msa pl /\
    upserted (e_block env) (ap_schemas pl) (dg_perms (default dg_default (ms_deleg st !! (d, ap_msa pl)))) perms /\
    (N.of_nat (size (dg_perms (default dg_default (ms_deleg st !! (d, ap_msa pl))))) <= c_max_grants cfg ->
     N.of_nat (size perms) <= c_max_grants cfg) /\
    ms_deleg st' = <[(d, ap_msa pl) := {| dg_revoked := 0; dg_perms := perms |}]> (ms_deleg st).
Proof.
  intros H. cbn in H.
  destruct (verify_signature _ _ _ _) eqn:Ev; [|discriminate].
  destruct (msa_register_signature cfg env st proof _) as [st1|] eqn:Er; [|discriminate].
  apply register_fields in Er as (r & -> & _).
  destruct (ensure_valid_registered_provider _ _ _) as [[p d]|] eqn:Ee; [|discriminate].
  apply evrp_ok in Ee as (Hp & Hd & Hne & Hreg).
  destruct (ap_msa pl =? p) eqn:Ep; [|discriminate]. apply N.eqb_eq in Ep as <-.
  apply upsert_ok in H as (Hval & new & -> & Hup & Hsz). cbn in *.
  do 4 (split; [done|]). exists d, new. done.
Qed.

Lemma dispatch_deleg_effect env st o call st' :
  msa_dispatch cfg env st o call = Ok st' -> deleg_effect env st st' o call.
Proof.
  intros H. destruct call; cbn in H; unfold signed_ in H.
  - destruct o as [who|]; [|discriminate].
    destruct (create_account cfg st who) as [[st1 id]|] eqn:E; [|discriminate]. inv_ok.
    apply create_account_ok in E as (-> & Hu & st2 & Ha & ->).
    apply add_key_ok in Ha as (Hk & H8 & Hm & ->). by apply DE_same.
  - destruct o as [who|]; [|discriminate].
    destruct (verify_signature cfg proof delegator_key _) eqn:Ev; [|discriminate].
    destruct (msa_register_signature cfg env st proof _) as [st1|] eqn:Er; [|discriminate].
    apply register_fields in Er as (r & -> & _).
    unfold ensure_valid_msa_key in H. cbn in H.
    destruct (ms_keys st !! who) as [pid|] eqn:Ew; [|discriminate].
    destruct (ap_msa payload =? pid) eqn:Ep; [|discriminate]. apply N.eqb_eq in Ep as <-.
    destruct (is_registered_provider _ _) eqn:Ereg; [|discriminate].
    destruct (create_account cfg (set_sigs st r) delegator_key) as [[st2 id]|] eqn:E; [|discriminate].
    apply create_account_ok in E as (-> & Hu & st3 & Ha & ->).
    apply add_key_ok in Ha as (Hk & H8 & Hm & ->).
    destruct (add_provider _ _ _ _ _ _) as [st4|] eqn:Eap; [|discriminate].
    apply add_provider_ok in Eap as (Hnd & Hval & dg & Hins & ->). inv_ok.
    apply ensure_ids_ok in Hval.
    apply try_insert_schemas_ok in Hins as (Hr & Hs & Hp).
    destruct dg as [rv perms]. cbn in *. subst rv.
    eapply (DE_sponsor _ _ _ _ _ who delegator_key proof payload perms); try done.
    + unfold controls. cbn. by rewrite lookup_insert.
    + apply Hs. rewrite map_size_empty. lia.
  - unfold ensure_valid_msa_key, create_provider_for in H. split_all H. by apply DE_same.
  - destruct o as [who|]; [|discriminate].
    apply (grant_dispatch_ok env st who delegator_key proof payload) in H
      as (Hp & Hreg & Hsig & Hval & d & new & Hd & Hne & Hup & Hsz & Hst).
    eapply (DE_grant _ _ _ _ _ who delegator_key proof d payload new); try done.
  - destruct o as [who|]; [|discriminate].
    unfold revoke_provider in H. split_all H; try (by apply DE_same).
    eapply (DE_revoke _ _ _ _ _ who); try done; [left; done|lia].
  - destruct o as [who|]; [|discriminate].
    destruct (verify_signature cfg owner_proof _ _) eqn:E1; [|discriminate].
    destruct (verify_signature cfg new_key_proof _ _) eqn:E2; [|discriminate].
    destruct (msa_register_signature cfg env st owner_proof _) as [st1|] eqn:Er; [|discriminate].
    apply register_fields in Er as (r & -> & _).
    destruct (msa_register_signature cfg env _ new_key_proof _) as [st2|] eqn:Er; [|discriminate].
    apply register_fields in Er as (r2 & -> & _).
    destruct (ensure_msa_owner _ _ _); [|discriminate].
    destruct (add_key _ _ _ _) as [st3|] eqn:Ea; [|discriminate]. inv_ok.
    apply add_key_ok in Ea as (Hk & H8 & Hm & ->). by apply DE_same.
  - unfold delete_key_for_msa in H. split_all H; by apply DE_same.
  - destruct o as [who|]; [|discriminate].
    unfold revoke_provider in H. split_all H; try (by apply DE_same).
    eapply (DE_revoke _ _ _ _ _ who); try done; [right; done|lia].
  - destruct o as [who|]; [|discriminate].
    unfold ensure_valid_msa_key in H.
    destruct (ms_keys st !! who) as [d|] eqn:Ew; [|discriminate].
    unfold revoke_permissions_for_schemas in H.
    destruct (ms_deleg st !! (d, provider)) as [dg|] eqn:Ed; [|discriminate].
    destruct (ensure_all_schema_ids_are_valid cfg env ids) eqn:Ev; [|discriminate].
    destruct (try_get_mut_schemas dg ids (e_block env)) as [d'|] eqn:Eg; [|discriminate]. inv_ok.
    apply ensure_ids_ok in Ev. apply try_get_mut_schemas_ok in Eg as (Hr & _ & Hd & Hk).
    destruct d' as [rv perms]. cbn in *. subst rv.
    eapply (DE_revoke_schemas _ _ _ _ _ who provider d ids dg perms); try done.
  - unfold delete_key_for_msa in H. split_all H; by apply DE_same.
  - unfold ensure_valid_msa_key in H. split_all H; by apply DE_same.
  - unfold ensure_valid_msa_key, create_provider_for in H. split_all H; by apply DE_same.
Qed.

(** ** What the checks say *)
Lemma delegation_ok_iff env st p d :
  delegation_ok env st p d <->
  exists dg, ms_deleg st !! (d, p) = Some dg /\ (dg_revoked dg = 0 \/ e_block env <= dg_revoked dg).
Proof.
  unfold delegation_ok, ensure_valid_delegation. destruct (ms_deleg st !! (d, p)) as [dg|].
  - destruct (dg_revoked dg =? 0) eqn:E0; [|destruct (e_block env <=? dg_revoked dg) eqn:E1]; cbn; split; intros H; try done.
    + exists dg. split; [done|]. lia.
    + exists dg. split; [done|]. lia.
    + destruct H as (dg' & [= <-] & H). lia.
  - cbn. split; [done|]. by intros (dg & ? & _).
Qed.

Lemma schema_ok_iff env st p d s :
  schema_ok env st p d s <->
  exists dg r, ms_deleg st !! (d, p) = Some dg /\ dg_perms dg !! s = Some r /\
    (dg_revoked dg = 0 \/ e_block env <= dg_revoked dg) /\ (r = 0 \/ e_block env <= r).
Proof.
  unfold schema_ok, ensure_valid_schema_grant, ensure_valid_delegation.
  destruct (ms_deleg st !! (d, p)) as [dg|].
  2:{ cbn. split; [done|]. by intros (dg & r & ? & _). }
  rewrite N.leb_refl.
  destruct (dg_perms dg !! s) as [r|] eqn:Es.
  2:{ split.
      - destruct (dg_revoked dg =? 0), (e_block env <=? dg_revoked dg); cbn; rewrite ?Es; done.
      - intros (dg' & r & [= <-] & H & _). congruence. }
  destruct (dg_revoked dg =? 0) eqn:E0; [|destruct (e_block env <=? dg_revoked dg) eqn:E1];
    rewrite ?Es; (destruct (r =? 0) eqn:E2; [|destruct (e_block env <=? r) eqn:E3]); cbn;
    (split; [intros _; exists dg, r; repeat split; try done; lia
            | intros (dg' & r' & [= <-] & Hr & H1 & H2); rewrite Es in Hr; injection Hr as <-; lia])
    || (split; [done|intros (dg' & r' & [= <-] & Hr & H1 & H2); rewrite Es in Hr; injection Hr as <-; lia]).
Qed.

(** ** C10 *)
Lemma grant_lemma env st o call st' p d top :
  msa_dispatch cfg env st o call = Ok st' ->
  ~ delegation_ok env st p d -> delegation_ok env st' p d ->
  (exists schemas, grant_step cfg st {| s_env := env; s_origin := o; s_call := call; s_top := top |} p d schemas) \/
  (exists who key proof pl, o = Signed who /\ call = CreateSponsored key proof pl /\
     controls st who p /\ ap_msa pl = p /\ d = ms_max st + 1 /\ controls st' key d /\
     signed_by cfg proof key (enc_add_provider pl)).
Proof.
  intros Hd Hn Ho.
  apply dispatch_deleg_effect in Hd. rewrite delegation_ok_iff in *.
  destruct Ho as (dg & Hl & Hr). destruct Hd.
  - exfalso. apply Hn. exists dg. by rewrite <- H.
  - rewrite H8 in Hl. apply lookup_insert_Some in Hl as [[[= <- <-] <-]|[_ Hl]].
    + right. exists who, key, proof, pl. done.
    + exfalso. apply Hn. by exists dg.
  - rewrite H9 in Hl. apply lookup_insert_Some in Hl as [[[= <- <-] <-]|[_ Hl]].
    + left. exists (ap_schemas pl), who, dkey, proof, pl. done.
    + exfalso. apply Hn. by exists dg.
  - rewrite H3 in Hl. apply lookup_insert_Some in Hl as [[[= <- <-] <-]|[_ Hl]].
    + exfalso. apply Hn. exists dg0. split; [done|by left].
    + exfalso. apply Hn. by exists dg.
  - rewrite H6 in Hl. apply lookup_insert_Some in Hl as [[[= <- <-] <-]|[_ Hl]].
    + exfalso. apply Hn. exists dg0. done.
    + exfalso. apply Hn. by exists dg.
Qed.


(** ** Stored blocks are blocks of the past *)
Lemma last_block_cons b x h : last_block b (x :: h) = last_block (e_block (s_env x)) h.
Proof. done. Qed.

Lemma last_schema_cons b x h : last_schema b (x :: h) = last_schema (e_max_schema (s_env x)) h.
Proof. done. Qed.

Lemma blocks_from_le b b' h : b' <= b -> blocks_from b h -> blocks_from b' h.
Proof. destruct h; cbn; [done|]. intros ? []. split; [lia|done]. Qed.

Lemma blocks_from_last b h : blocks_from b h -> b <= last_block b h.
Proof.
  revert b; induction h as [|x h IH]; intros b.
  - cbn. lia.
  - cbn. intros [H1 H2]. apply IH in H2. lia.
Qed.

Lemma blocks_from_app b h1 h2 :
  blocks_from b (h1 ++ h2) <-> blocks_from b h1 /\ blocks_from (last_block b h1) h2.
Proof.
  revert b; induction h1 as [|x h IH]; intros b; cbn [app blocks_from].
  - cbn. tauto.
  - rewrite last_block_cons, IH. tauto.
Qed.

Lemma last_block_app b h1 h2 : last_block b (h1 ++ h2) = last_block (last_block b h1) h2.
Proof.
  revert b; induction h1 as [|x h IH]; intros b; cbn [app]; [done|].
  by rewrite !last_block_cons, IH.
Qed.

Lemma msa_run_timed (P : N -> MsaState -> Prop) b st :
  P b st ->
  (forall b b' s, b <= b' -> P b s -> P b' s) ->
  (forall env s o call s', P (e_block env) s ->
     msa_dispatch cfg env s o call = Ok s' -> P (e_block env) s') ->
  forall h, blocks_from b h -> P (last_block b h) (msa_run cfg st h).
Proof.
  intros H0 Hmono Hs h. revert b st H0. induction h as [|x h IH]; intros b st H0 Hb.
  - done.
  - cbn in *. destruct Hb as [Hb1 Hb2]. apply IH; [|done].
    destruct (msa_step_cases cfg st x) as [->|(st' & _ & Hd & ->)].
    + by apply (Hmono b).
    + eapply Hs; eauto.
Qed.

Definition past_inv (b : N) (st : MsaState) : Prop :=
  forall k dg, ms_deleg st !! k = Some dg ->
    dg_revoked dg <= b /\ forall s r, dg_perms dg !! s = Some r -> r <= b.

Lemma past_inv_default b st k : past_inv b st ->
  forall s r, dg_perms (default dg_default (ms_deleg st !! k)) !! s = Some r -> r <= b.
Proof.
  intros Hi s r. destruct (ms_deleg st !! k) as [dg|] eqn:E; cbn.
  - apply (Hi _ _ E).
  - by rewrite lookup_empty.
Qed.

Lemma past_inv_step env st o call st' :
  past_inv (e_block env) st -> msa_dispatch cfg env st o call = Ok st' -> past_inv (e_block env) st'.
Proof.
  intros Hi Hd. apply dispatch_deleg_effect in Hd. intros k dg' Hk. destruct Hd.
  - rewrite H in Hk. by apply (Hi k).
  - rewrite H8 in Hk. apply lookup_insert_Some in Hk as [[<- <-]|[_ Hk]]; [|by apply (Hi k)].
    cbn. split; [lia|]. intros s r. rewrite H6. destruct (decide _); [|done]. intros [= <-]. lia.
  - rewrite H9 in Hk. apply lookup_insert_Some in Hk as [[<- <-]|[_ Hk]]; [|by apply (Hi k)].
    cbn. split; [lia|]. intros s r. rewrite (H7 s).
    destruct (decide _); [intros [= <-]; lia|]. destruct (decide _); [intros [= <-]; lia|].
    by apply past_inv_default.
  - rewrite H3 in Hk. apply lookup_insert_Some in Hk as [[<- <-]|[_ Hk]]; [|by apply (Hi k)].
    cbn. split; [lia|]. apply (Hi _ _ H1).
  - rewrite H6 in Hk. apply lookup_insert_Some in Hk as [[<- <-]|[_ Hk]]; [|by apply (Hi k)].
    cbn. split; [apply (Hi _ _ H2)|]. intros s r. rewrite H5.
    destruct (decide _); [intros [= <-]; lia|]. apply (Hi _ _ H2).
Qed.

Lemma past_inv_mono b b' st : b <= b' -> past_inv b st -> past_inv b' st.
Proof.
  intros Hb Hi k dg Hk. destruct (Hi _ _ Hk) as [H1 H2]. split; [lia|].
  intros s r Hs. specialize (H2 _ _ Hs). lia.
Qed.

Lemma past_inv_run h : blocks_from 1 h -> past_inv (last_block 1 h) (msa_run cfg msa_genesis h).
Proof.
  intros Hb. apply (msa_run_timed past_inv); try done.
  - intros b b' s. apply past_inv_mono.
  - intros. by eapply past_inv_step.
Qed.

(** A schema that becomes usable in later blocks *)
Lemma schema_grant_lemma h env env' o call st' p d s top :
  let st := msa_run cfg msa_genesis h in
  msa_dispatch cfg env st o call = Ok st' ->
  blocks_from 1 h -> last_block 1 h <= e_block env -> e_block env < e_block env' ->
  ~ schema_ok env' st p d s -> schema_ok env' st' p d s ->
  (exists schemas, s ∈ schemas /\
     grant_step cfg st {| s_env := env; s_origin := o; s_call := call; s_top := top |} p d schemas) \/
  (exists who key proof pl, o = Signed who /\ call = CreateSponsored key proof pl /\
     s ∈ ap_schemas pl /\
     controls st who p /\ ap_msa pl = p /\ d = ms_max st + 1 /\ controls st' key d /\
     signed_by cfg proof key (enc_add_provider pl)).
Proof.
  intros st Hd Hh Hlast Hb Hn Ho.
  pose proof (blocks_from_last _ _ Hh) as Hone.
  assert (Hpast : past_inv (e_block env) st).
  { eapply past_inv_mono; [exact Hlast|]. by apply past_inv_run. }
  apply dispatch_deleg_effect in Hd. rewrite schema_ok_iff in *.
  destruct Ho as (dg & r & Hl & Hs & Hr & Hr'). destruct Hd.
  - exfalso. apply Hn. exists dg, r. by rewrite <- H.
  - rewrite H8 in Hl. apply lookup_insert_Some in Hl as [[[= <- <-] <-]|[_ Hl]].
    + right. exists who, key, proof, pl. cbn in Hs. rewrite H6 in Hs. destruct (decide (s ∈ ap_schemas pl)); done.
    + exfalso. apply Hn. by exists dg, r.
  - rewrite H9 in Hl. apply lookup_insert_Some in Hl as [[[= <- <-] <-]|[_ Hl]].
    + left. exists (ap_schemas pl). cbn in Hs. pose proof Hs as Hs2. rewrite (H7 s) in Hs.
      destruct (decide (s ∈ ap_schemas pl)) as [Hin|Hin].
      * split; [done|]. exists who, dkey, proof, pl. done.
      * exfalso. destruct (decide _) as [Hz|Hz].
        -- injection Hs as <-. lia.
        -- apply (past_inv_default _ _ _ Hpast) in Hs as Hle.
           assert (r = 0) as -> by lia. congruence.
    + exfalso. apply Hn. by exists dg, r.
  - rewrite H3 in Hl. apply lookup_insert_Some in Hl as [[[= <- <-] <-]|[_ Hl]].
    + cbn in *. exfalso. apply Hn. exists dg0, r. split; [done|]. split; [done|]. split; [by left|done].
    + exfalso. apply Hn. by exists dg, r.
  - rewrite H6 in Hl. apply lookup_insert_Some in Hl as [[[= <- <-] <-]|[_ Hl]].
    + cbn in *. rewrite H5 in Hs. destruct (decide _).
      * injection Hs as <-. lia.
      * exfalso. apply Hn. by exists dg0, r.
    + exfalso. apply Hn. by exists dg, r.
Qed.
(** ** C11 *)
Lemma exact_grant_lemma h env who dkey proof pl d st' :
  let st := msa_run cfg msa_genesis h in
  blocks_from 1 h -> last_block 1 h <= e_block env ->
  msa_dispatch cfg env st (Signed who) (GrantDelegation dkey proof pl) = Ok st' ->
  controls st dkey d ->
  forall env' s, e_block env < e_block env' ->
    (schema_ok env' st' (ap_msa pl) d s <-> s ∈ ap_schemas pl).
Proof.
  intros st Hh Hl Hd Hc env' s Hb.
  pose proof (blocks_from_last _ _ Hh) as Hone.
  assert (Hpast : past_inv (e_block env) st).
  { eapply past_inv_mono; [exact Hl|]. by apply past_inv_run. }
  apply grant_dispatch_ok in Hd as (Hp & Hreg & Hsig & Hval & d' & new & Hd & Hne & Hup & Hsz & Hst).
  assert (d' = d) as -> by (unfold controls in *; congruence).
    rewrite schema_ok_iff. split.
    + intros (dg & r & Hl' & Hq & Hr & Hr').
      rewrite Hst in Hl'. rewrite lookup_insert in Hl'. injection Hl' as <-. cbn in *.
      rewrite (Hup s) in Hq. destruct (decide (s ∈ ap_schemas pl)) as [|Hin]; [done|]. exfalso.
      destruct (decide _) as [Hz|Hz].
      * injection Hq as <-. lia.
      * apply (past_inv_default _ _ _ Hpast) in Hq as Hle. assert (r = 0) as -> by lia. congruence.
    + intros Hin. eexists _, 0. rewrite Hst, lookup_insert. split; [done|]. cbn.
      rewrite (Hup s), decide_True by done. split; [done|]. split; by left.
Qed.
(** ** Delegations belong to issued MSAs *)
Definition deleg_ids_inv (st : MsaState) : Prop :=
  (forall k m, controls st k m -> 1 <= m <= ms_max st) /\
  (forall d p dg, ms_deleg st !! (d, p) = Some dg -> 1 <= d <= ms_max st).

Lemma max_mono_step env st o call st' :
  msa_dispatch cfg env st o call = Ok st' -> ms_max st <= ms_max st'.
Proof. intros Hd. apply dispatch_key_effect in Hd. destruct Hd; lia. Qed.

Lemma deleg_ids_inv_step env st o call st' :
  deleg_ids_inv st -> msa_dispatch cfg env st o call = Ok st' -> deleg_ids_inv st'.
Proof.
  intros [Hk Hi] Hd. pose proof (max_mono_step _ _ _ _ _ Hd) as Hm.
  assert (Hkn : forall k m, controls st' k m -> 1 <= m <= ms_max st').
  { intros k m Hc. destruct (decide (ms_keys st !! k = Some m)) as [Hk'|Hk'].
    + apply Hk in Hk'. lia.
    + destruct (attach_lemma _ _ _ _ _ _ _ _ Hd Hc Hk')
        as [(-> & -> & _)|(? & okey & ? & ? & ? & ? & ? & ? & ? & Ho & _)].
      * lia.
      * apply Hk in Ho. lia. }
  split; [done|].
  - intros d p dg Hl.
    assert (Hmax : ms_deleg st' !! (d, p) = ms_deleg st !! (d, p) \/ 1 <= d <= ms_max st').
    { apply dispatch_deleg_effect in Hd. destruct Hd.
      - left. by rewrite H.
      - rewrite H8. destruct (decide ((ms_max st + 1, ap_msa pl) = (d, p))) as [[= <- <-]|Hne].
        + right. by apply Hkn in H3.
        + left. by rewrite lookup_insert_ne.
      - rewrite H9. destruct (decide ((d0, ap_msa pl) = (d, p))) as [[= <- <-]|Hne].
        + right. apply Hk in H3. lia.
        + left. by rewrite lookup_insert_ne.
      - rewrite H3. destruct (decide ((d0, p0) = (d, p))) as [[= <- <-]|Hne].
        + right. apply Hi in H1. lia.
        + left. by rewrite lookup_insert_ne.
      - rewrite H6. destruct (decide ((d0, p0) = (d, p))) as [[= <- <-]|Hne].
        + right. apply Hi in H2. lia.
        + left. by rewrite lookup_insert_ne. }
    destruct Hmax as [Hx|]; [|done]. rewrite Hx in Hl. apply Hi in Hl. lia.
Qed.

Lemma deleg_ids_inv_run h : deleg_ids_inv (msa_run cfg msa_genesis h).
Proof.
  apply msa_run_ind.
  - split; [intros k m H|intros d p dg H]; discriminate H.
  - intros. by eapply deleg_ids_inv_step.
Qed.

(** ** C12 *)
Lemma revoked_step env st o call st' p d dg top :
  deleg_ids_inv st -> ms_deleg st !! (d, p) = Some dg -> dg_revoked dg <> 0 ->
  msa_dispatch cfg env st o call = Ok st' ->
  (exists schemas, grant_step cfg st {| s_env := env; s_origin := o; s_call := call; s_top := top |} p d schemas) \/
  exists dg', ms_deleg st' !! (d, p) = Some dg' /\ dg_revoked dg' = dg_revoked dg.
Proof.
  intros [_ Hi] Hl Hr Hd. apply dispatch_deleg_effect in Hd. destruct Hd.
  - right. exists dg. by rewrite H.
  - right. exists dg. rewrite H8, lookup_insert_ne; [done|]. intros [= <- <-]. apply Hi in Hl. lia.
  - rewrite H9. destruct (decide ((d0, ap_msa pl) = (d, p))) as [[= <- <-]|Hne].
    + left. exists (ap_schemas pl), who, dkey, proof, pl. done.
    + right. exists dg. by rewrite lookup_insert_ne.
  - right. rewrite H3. destruct (decide ((d0, p0) = (d, p))) as [[= <- <-]|Hne].
    + congruence.
    + exists dg. by rewrite lookup_insert_ne.
  - right. rewrite H6. destruct (decide ((d0, p0) = (d, p))) as [[= <- <-]|Hne].
    + rewrite lookup_insert. eexists. split; [done|]. cbn. congruence.
    + exists dg. by rewrite lookup_insert_ne.
Qed.

Lemma revoked_run h : forall st p d dg,
  deleg_ids_inv st -> ms_deleg st !! (d, p) = Some dg -> dg_revoked dg <> 0 ->
  (exists ha y hb schemas, h = ha ++ y :: hb /\ grant_step cfg (msa_run cfg st ha) y p d schemas) \/
  exists dg', ms_deleg (msa_run cfg st h) !! (d, p) = Some dg' /\ dg_revoked dg' = dg_revoked dg.
Proof.
  induction h as [|x h IH]; intros st p d dg Hi Hl Hr.
  - right. by exists dg.
  - destruct (msa_step_cases cfg st x) as [Heq|(st' & Hv & Hd & Heq)].
    + destruct (IH st p d dg Hi Hl Hr) as [(ha & y & hb & sc & -> & Hg)|Hx].
      * left. exists (x :: ha), y, hb, sc. split; [done|]. cbn. by rewrite Heq.
      * right. cbn. by rewrite Heq.
    + destruct (revoked_step _ _ _ _ _ p d dg (s_top x) Hi Hl Hr Hd) as [[sc Hg]|(dg' & Hl' & Hr')].
      * left. exists [], x, h, sc. split; [done|]. by destruct x.
      * pose proof (deleg_ids_inv_step _ _ _ _ _ Hi Hd) as Hi'.
        destruct (IH st' p d dg' Hi' Hl') as [(ha & y & hb & sc & -> & Hg)|(dg2 & ? & ?)].
        -- congruence.
        -- left. exists (x :: ha), y, hb, sc. split; [done|]. cbn. by rewrite Heq.
        -- right. exists dg2. cbn. rewrite Heq. split; [done|]. congruence.
Qed.

Lemma revoke_dispatch_ok env st who p d call st' :
  (call = RevokeByDelegator p /\ controls st who d \/ call = RevokeByProvider d /\ controls st who p) ->
  msa_dispatch cfg env st (Signed who) call = Ok st' ->
  exists dg, ms_deleg st !! (d, p) = Some dg /\ dg_revoked dg = 0 /\
    ms_deleg st' = <[(d, p) := {| dg_revoked := e_block env; dg_perms := dg_perms dg |}]> (ms_deleg st).
Proof.
  unfold controls. intros [[-> Hc]|[-> Hc]] H; cbn in H; rewrite Hc in H;
    unfold revoke_provider in H; split_all H; eexists; (split; [done|]); (split; [lia|done]).
Qed.

Lemma revocation_lemma h1 h2 env who p d call st1 env' :
  let st := msa_run cfg msa_genesis h1 in
  1 <= e_block env -> e_block env < e_block env' ->
  (call = RevokeByDelegator p /\ controls st who d \/ call = RevokeByProvider d /\ controls st who p) ->
  msa_dispatch cfg env st (Signed who) call = Ok st1 ->
  let st2 := msa_run cfg st1 h2 in
  (delegation_ok env' st2 p d \/ exists s, schema_ok env' st2 p d s) ->
  exists ha y hb schemas, h2 = ha ++ y :: hb /\ grant_step cfg (msa_run cfg st1 ha) y p d schemas.
Proof.
  intros st Hb1 Hb Hcall Hd st2 Hok.
  assert (Hi : deleg_ids_inv st1).
  { eapply deleg_ids_inv_step; [|exact Hd]. apply deleg_ids_inv_run. }
  destruct (revoke_dispatch_ok _ _ _ _ _ _ _ Hcall Hd) as (dg & Hl & Hz & Hst).
  destruct (revoked_run h2 st1 p d {| dg_revoked := e_block env; dg_perms := dg_perms dg |} Hi) as [|(dg' & Hl' & Hr')].
  - rewrite Hst. apply lookup_insert.
  - cbn. lia.
  - done.
  - exfalso. cbn in Hr'. fold st2 in Hl'.
    destruct Hok as [Hok|[s Hok]].
    + apply delegation_ok_iff in Hok as (dg2 & Hl2 & Hx). rewrite Hl' in Hl2. injection Hl2 as <-. lia.
    + apply schema_ok_iff in Hok as (dg2 & r & Hl2 & _ & Hx & _). rewrite Hl' in Hl2. injection Hl2 as <-. lia.
Qed.

(** ** C13 *)
Definition size_inv (st : MsaState) : Prop :=
  forall k dg, ms_deleg st !! k = Some dg -> N.of_nat (size (dg_perms dg)) <= c_max_grants cfg.

Lemma size_inv_run h : size_inv (msa_run cfg msa_genesis h).
Proof.
  apply msa_run_ind.
  - intros k dg Hk. discriminate Hk.
  - intros env st o call st' Hi Hd. apply dispatch_deleg_effect in Hd. intros k dg' Hk. destruct Hd.
    + rewrite H in Hk. by apply (Hi k).
    + rewrite H8 in Hk. apply lookup_insert_Some in Hk as [[<- <-]|[_ Hk]]; [done|by apply (Hi k)].
    + rewrite H9 in Hk. apply lookup_insert_Some in Hk as [[<- <-]|[_ Hk]]; [|by apply (Hi k)].
      cbn. apply H8. destruct (ms_deleg st !! (d, ap_msa pl)) eqn:E; cbn; [by apply (Hi _ _ E)|].
      rewrite map_size_empty. lia.
    + rewrite H3 in Hk. apply lookup_insert_Some in Hk as [[<- <-]|[_ Hk]]; [|by apply (Hi k)].
      cbn. apply (Hi _ _ H1).
    + rewrite H6 in Hk. apply lookup_insert_Some in Hk as [[<- <-]|[_ Hk]]; [|by apply (Hi k)].
      cbn. rewrite <- size_dom, H4, size_dom. apply (Hi _ _ H2).
Qed.

Definition schema_inv (b : N) (st : MsaState) : Prop :=
  forall k dg s, ms_deleg st !! k = Some dg -> is_Some (dg_perms dg !! s) -> s <= b.

Lemma schema_inv_step env st o call st' :
  schema_inv (e_max_schema env) st -> msa_dispatch cfg env st o call = Ok st' -> schema_inv (e_max_schema env) st'.
Proof.
  intros Hi Hd. apply dispatch_deleg_effect in Hd. intros k dg' s Hk Hs. destruct Hd.
  - rewrite H in Hk. by apply (Hi k dg').
  - rewrite H8 in Hk. apply lookup_insert_Some in Hk as [[<- <-]|[_ Hk]]; [|by apply (Hi k dg')].
    cbn in Hs. rewrite H6 in Hs. destruct (decide (s ∈ ap_schemas pl)); [|by destruct Hs]. by apply H5.
  - rewrite H9 in Hk. apply lookup_insert_Some in Hk as [[<- <-]|[_ Hk]]; [|by apply (Hi k dg')].
    cbn in Hs. rewrite (H7 s) in Hs. destruct (decide (s ∈ ap_schemas pl)); [by apply H6|].
    destruct (ms_deleg st !! (d, ap_msa pl)) as [dg|] eqn:E; cbn in Hs.
    + apply (Hi _ _ s E). destruct (decide _); [by eexists|done].
    + rewrite lookup_empty in Hs. rewrite decide_False in Hs by done. by destruct Hs.
  - rewrite H3 in Hk. apply lookup_insert_Some in Hk as [[<- <-]|[_ Hk]]; [|by apply (Hi k dg')].
    cbn in Hs. by apply (Hi _ _ s H1).
  - rewrite H6 in Hk. apply lookup_insert_Some in Hk as [[<- <-]|[_ Hk]]; [|by apply (Hi k dg')].
    cbn in Hs. apply (Hi _ _ s H2). apply elem_of_dom. rewrite <- H4. by apply elem_of_dom.
Qed.

Lemma schema_inv_run h : schemas_from 0 h -> schema_inv (last_schema 0 h) (msa_run cfg msa_genesis h).
Proof.
  enough (Hg : forall b st, schema_inv b st -> schemas_from b h -> schema_inv (last_schema b h) (msa_run cfg st h)).
  { apply Hg. intros k dg s Hk. discriminate Hk. }
  induction h as [|x h IH]; intros b st Hi Hs; [done|]. cbn in *. destruct Hs as [Hs1 Hs2].
  apply IH; [|done].
  assert (Hi' : schema_inv (e_max_schema (s_env x)) st).
  { intros k dg s Hk Hp. specialize (Hi k dg s Hk Hp). lia. }
  destruct (msa_step_cases cfg st x) as [->|(st' & _ & Hd & ->)]; [done|].
  by eapply schema_inv_step.
Qed.

Lemma delegation_bounds_lemma h d p dg :
  schemas_from 0 h -> ms_deleg (msa_run cfg msa_genesis h) !! (d, p) = Some dg ->
  N.of_nat (size (dg_perms dg)) <= c_max_grants cfg /\
  forall s, is_Some (dg_perms dg !! s) -> s <= last_schema 0 h.
Proof.
  intros Hs Hl. split; [by apply (size_inv_run h _ _ Hl)|].
  intros s. by apply (schema_inv_run h Hs _ _ s Hl).
Qed.

(** ** C14 *)
Lemma free_calls_lemma h env who call :
  let st := msa_run cfg msa_genesis h in
  blocks_from 1 h -> last_block 1 h <= e_block env ->
  free_call call ->
  msa_validate env st (Signed who) call = Ok tt ->
  (forall p d dg, ms_deleg st !! (d, p) = Some dg -> dg_revoked dg <> e_block env) ->
  exists st', msa_dispatch cfg env st (Signed who) call = Ok st'.
Proof.
  intros st Hh Hl Hf Hv Hne.
  assert (Hpast : past_inv (e_block env) st).
  { eapply past_inv_mono; [exact Hl|]. by apply past_inv_run. }
  assert (Hrev : forall p d, is_ok (ensure_valid_delegation env st p d None) = true ->
             exists st', revoke_provider env st p d = Ok st').
  { intros p d Hok. apply delegation_ok_iff in Hok as (dg & Hld & Hr).
    unfold revoke_provider. rewrite Hld. destruct (Hpast _ _ Hld) as [Hle _]. specialize (Hne _ _ _ Hld).
    replace (dg_revoked dg =? 0) with true by lia. by eexists. }
  destruct call; cbn in Hf; try done; cbn in Hv |- *.
  - destruct (ms_keys st !! who); [|done]. apply Hrev.
    unfold validate_revocation in Hv. by destruct (ensure_valid_delegation _ _ _ _ _).
  - unfold validate_key_delete in Hv. split_all Hv. unfold delete_key_for_msa. rewrite E1. by eexists.
  - destruct (ms_keys st !! who); [|done]. apply Hrev.
    unfold validate_revocation in Hv. by destruct (ensure_valid_delegation _ _ _ _ _).
  - destruct (ms_keys st !! who) as [m|] eqn:E; [|by eexists]. unfold delete_key_for_msa. rewrite E. by eexists.
Qed.

Lemma free_delete_lemma env st who call :
  (exists key, call = DeletePublicKey key) \/ call = RetireMsa ->
  msa_validate env st (Signed who) call = Ok tt ->
  exists st', msa_dispatch cfg env st (Signed who) call = Ok st'.
Proof.
  intros [[key ->]| ->] Hv; cbn in Hv |- *.
  - unfold validate_key_delete in Hv. split_all Hv. unfold delete_key_for_msa. rewrite E1. by eexists.
  - destruct (ms_keys st !! who) as [m|] eqn:E; [|by eexists]. unfold delete_key_for_msa. rewrite E. by eexists.
Qed.

(** ** C16 *)
(** The answer about block [b] that a delegation entry gives *)
Definition entry_ok (o : option Delegation) (b : N) : Prop :=
  exists dg, o = Some dg /\ (dg_revoked dg = 0 \/ b <= dg_revoked dg).

Lemma history_step env st o call st' p d b top :
  b < e_block env -> d <= ms_max st ->
  msa_dispatch cfg env st o call = Ok st' ->
  (forall schemas, ~ grant_step cfg st {| s_env := env; s_origin := o; s_call := call; s_top := top |} p d schemas) ->
  (entry_ok (ms_deleg st' !! (d, p)) b <-> entry_ok (ms_deleg st !! (d, p)) b).
Proof.
  intros Hb Hm Hd Hng. apply dispatch_deleg_effect in Hd. unfold entry_ok. destruct Hd.
  - by rewrite H.
  - rewrite H8, lookup_insert_ne; [done|]. intros [= <- <-]. lia.
  - rewrite H9, lookup_insert_ne; [done|]. intros [= <- <-].
    apply (Hng (ap_schemas pl)). exists who, dkey, proof, pl. done.
  - rewrite H3. destruct (decide ((d0, p0) = (d, p))) as [[= <- <-]|Hne].
    + rewrite lookup_insert, H1. split; intros (dg' & [= <-] & Hx); eexists; (split; [done|]).
      * by left.
      * right. cbn. lia.
    + by rewrite lookup_insert_ne.
  - rewrite H6. destruct (decide ((d0, p0) = (d, p))) as [[= <- <-]|Hne].
    + rewrite lookup_insert, H2. split; intros (dg' & [= <-] & Hx); eexists; (split; [done|]); done.
    + by rewrite lookup_insert_ne.
Qed.

Lemma history_run h : forall st p d b,
  Forall (fun x => b < e_block (s_env x)) h -> d <= ms_max st ->
  (forall ha y hb schemas, h = ha ++ y :: hb -> ~ grant_step cfg (msa_run cfg st ha) y p d schemas) ->
  (entry_ok (ms_deleg (msa_run cfg st h) !! (d, p)) b <-> entry_ok (ms_deleg st !! (d, p)) b).
Proof.
  induction h as [|x h IH]; intros st p d b Hb Hm Hng; [done|].
  inversion Hb; subst. cbn. destruct (msa_step_cases cfg st x) as [Heq|(st' & _ & Hd & Heq)]; rewrite Heq.
  - apply IH; try done. intros ha y hb sc -> Hg. apply (Hng (x :: ha) y hb sc); [done|]. cbn. by rewrite Heq.
  - rewrite IH; try done.
    + eapply (history_step _ _ _ _ _ p d b (s_top x)); try done.
      intros sc Hg. apply (Hng [] x h sc); [done|]. by destruct x.
    + apply max_mono_step in Hd. lia.
    + intros ha y hb sc -> Hg. apply (Hng (x :: ha) y hb sc); [done|]. cbn. by rewrite Heq.
Qed.

Lemma past_check_iff env st p d b :
  b <= e_block env ->
  is_ok (ensure_valid_delegation env st p d (Some b)) = true <-> entry_ok (ms_deleg st !! (d, p)) b.
Proof.
  intros Hb. unfold ensure_valid_delegation, entry_ok. destruct (ms_deleg st !! (d, p)) as [dg|].
  - replace (b <=? e_block env) with true by lia.
    destruct (dg_revoked dg =? 0) eqn:E0; [|destruct (b <=? dg_revoked dg) eqn:E1]; cbn;
      split; intros H; try done.
    + exists dg. split; [done|lia].
    + exists dg. split; [done|lia].
    + destruct H as (dg' & [= <-] & H). lia.
  - split; [done|]. by intros (? & ? & _).
Qed.

Lemma past_check_lemma h1 h2 env p d b :
  let st1 := msa_run cfg msa_genesis h1 in
  let st2 := msa_run cfg st1 h2 in
  issued st1 d -> b <= e_block env ->
  Forall (fun x => b < e_block (s_env x)) h2 ->
  (forall ha y hb schemas, h2 = ha ++ y :: hb -> ~ grant_step cfg (msa_run cfg st1 ha) y p d schemas) ->
  (is_ok (ensure_valid_delegation env st2 p d (Some b)) = true <->
   delegation_ok (at_block env b) st1 p d).
Proof.
  intros st1 st2 Hi Hb Hf Hng. rewrite past_check_iff by done.
  rewrite delegation_ok_iff. cbn. apply issued_le in Hi.
  apply history_run; [done| |done]. unfold st1. lia.
Qed.

End proofs.

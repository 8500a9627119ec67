(** Proofs about the MSA events. *)
From Verif Require Import Prelude Scale SigModel MsaModel MsaSpec MsaProofs MsaDelegProofs EvModel EvSpec.

Definition key_from (k : N) (evs : list MsaEvent) (o : option N) : option N :=
  fold_left (fun o e =>
    match e with
    | MsaCreated m k' | PublicKeyAdded m k' => if k' =? k then Some m else o
    | PublicKeyDeleted k' => if k' =? k then None else o
    | _ => o
    end) evs o.
Definition deleg_from (p d : N) (evs : list MsaEvent) (b : bool) : bool :=
  fold_left (fun b e =>
    match e with
    | DelegationGranted p' d' => if (p' =? p) && (d' =? d) then true else b
    | DelegationRevoked p' d' => if (p' =? p) && (d' =? d) then false else b
    | _ => b
    end) evs b.
Definition granted_now (st : MsaState) (p d : N) : bool :=
  match ms_deleg st !! (d, p) with Some dg => dg_revoked dg =? 0 | None => false end.

Local Instance event_eq : EqDecision MsaEvent.
Proof. solve_decision. Defined.

Section proofs.
Context (cfg : MsaCfg).
Notation run := (msa_run cfg msa_genesis).
Notation events := (msa_events cfg msa_genesis).

(** The events of a successful call account for its effect. *)
Definition accounted (env : MsaEnv) (st st' : MsaState) (evs : list MsaEvent) : Prop :=
  (forall k, ms_keys st' !! k = key_from k evs (ms_keys st !! k))
  /\ (forall p, is_Some (ms_prov st' !! p) <-> is_Some (ms_prov st !! p) \/ ProviderCreated p ∈ evs)
  /\ (forall p d, (forall e, e ∈ evs -> ~ about p d e) -> ms_deleg st' !! (d, p) = ms_deleg st !! (d, p))
  /\ (forall p d, 0 < e_block env -> granted_now st' p d = deleg_from p d evs (granted_now st p d)).

Lemma insert_key (m : gmap N N) k x k' : <[k := x]> m !! k' = (if k =? k' then Some x else m !! k').
Proof. destruct (N.eqb_spec k k') as [->|]; [by rewrite lookup_insert|by rewrite lookup_insert_ne]. Qed.
Lemma delete_key (m : gmap N N) k k' : delete k m !! k' = (if k =? k' then None else m !! k').
Proof. destruct (N.eqb_spec k k') as [->|]; [by rewrite lookup_delete|by rewrite lookup_delete_ne]. Qed.
Lemma granted_insert st st' d p x p' d' :
  ms_deleg st' = <[(d, p) := x]> (ms_deleg st) ->
  granted_now st' p' d' = if (p =? p') && (d =? d') then dg_revoked x =? 0 else granted_now st p' d'.
Proof.
  intros E. unfold granted_now. rewrite E. destruct (N.eqb_spec p p') as [->|Hp]; [destruct (N.eqb_spec d d') as [->|Hd]|]; cbn.
  - by rewrite lookup_insert.
  - rewrite lookup_insert_ne by congruence. done.
  - rewrite lookup_insert_ne by congruence. done.
Qed.
Lemma not_about_ne (evs : list MsaEvent) e p d p' d' : e ∈ evs -> about p d e -> (forall e, e ∈ evs -> ~ about p' d' e) -> (d, p) <> (d', p').
Proof. intros Hin Ha Hno [= -> ->]. by apply (Hno e). Qed.

Ltac no_el H := repeat (apply elem_of_cons in H as [H|H]); try discriminate; try (by apply elem_of_nil in H).
Ltac prov_same := intros pp; split; [intros Hpp; left; exact Hpp|intros [Hpp|Hpp]; [exact Hpp|no_el Hpp]].
Ltac nothing := split; [done|]; split; [prov_same|]; split; done.

Lemma dispatch_accounted env st o call st' :
  msa_dispatch cfg env st o call = Ok st' -> accounted env st st' (msa_deposits st st' o call).
Proof.
  intros H. unfold accounted. destruct call; cbn in H; unfold signed_ in H; cbn [msa_deposits].
  - destruct o as [who|]; [|discriminate].
    destruct (create_account cfg st who) as [[st1 id]|] eqn:E; [|discriminate]. inv_ok.
    apply create_account_ok in E as (-> & Hu & st2 & Ha & ->).
    apply add_key_ok in Ha as (Hk & H8 & Hm & ->). cbn.
    split; [intros k; apply insert_key|]. split; [prov_same|]. split; done.
  - destruct o as [who|]; [|discriminate].
    destruct (verify_signature cfg proof delegator_key _) eqn:Ev; [|discriminate].
    destruct (msa_register_signature cfg env st proof _) as [st1|] eqn:Er; [|discriminate].
    apply register_fields in Er as (r & -> & _).
    unfold ensure_valid_msa_key in H. cbn in H.
    destruct (ms_keys st !! who) as [pid|] eqn:Ew; [|discriminate].
    destruct (ap_msa payload =? pid) eqn:Ep; [|discriminate]. apply N.eqb_eq in Ep as <-.
    destruct (is_registered_provider _ _) eqn:Ereg; [|discriminate].
    destruct (create_account cfg (set_sigs st r) delegator_key) as [[st2 id]|] eqn:E; [|discriminate].
    apply create_account_ok in E as (-> & Hu & st3 & Ha & ->).
    apply add_key_ok in Ha as (Hk & H8 & Hm & ->).
    destruct (add_provider _ _ _ _ _ _) as [st4|] eqn:Eap; [|discriminate].
    apply add_provider_ok in Eap as (Hnd & Hval & dg & Hins & ->). inv_ok. cbn.
    apply try_insert_schemas_ok in Hins as (Hrv & _).
    split; [intros k; apply insert_key|]. split; [prov_same|]. split.
    + intros p d Hno. rewrite lookup_insert_ne; [done|].
      eapply (not_about_ne _ (DelegationGranted (ap_msa payload) (ms_max st + 1))); [|by left|exact Hno]. right; left.
    + intros p d _. erewrite granted_insert; [|reflexivity]. rewrite Hrv. cbn. done.
  - destruct o as [who|]; [|discriminate]. unfold ensure_valid_msa_key, create_provider_for in H.
    destruct (ms_keys st !! who) as [pid|] eqn:Ew; [|discriminate]. split_all H. cbn.
    split; [done|]. split; [|split; done]. intros p. destruct (decide (p = pid)) as [->|Hn].
    + rewrite lookup_insert. split; [intros _; right; left|intros _; by eexists].
    + rewrite lookup_insert_ne by done. split; [by left|]. intros [?|Hin]; [done|]. no_el Hin. congruence.
  - destruct o as [who|]; [|discriminate].
    pose proof H as H'. apply (grant_dispatch_ok cfg env st who delegator_key proof payload) in H'
      as (Hp & Hreg & Hsig & Hval & d0 & new & Hd & Hne & Hup & Hsz & Hst).
    rewrite Hp, Hd.
    destruct (verify_signature _ _ _ _); [|discriminate].
    destruct (msa_register_signature cfg env st proof _) as [st1|] eqn:Er; [|discriminate].
    apply register_fields in Er as (r & -> & _).
    destruct (ensure_valid_registered_provider _ _ _) as [[p1 d1]|]; [|discriminate].
    destruct (ap_msa payload =? p1); [|discriminate].
    apply upsert_ok in H as (_ & new' & -> & _). cbn in *.
    split; [done|]. split; [prov_same|]. split.
    + intros p d Hno. rewrite Hst. rewrite lookup_insert_ne; [done|].
      eapply (not_about_ne _ (DelegationGranted (ap_msa payload) d0)); [|by left|exact Hno]. left.
    + intros p d _. erewrite granted_insert; [|exact Hst]. cbn. done.
  - destruct o as [who|]; [|discriminate].
    destruct (ms_keys st !! who) as [did|] eqn:Ew; [|inv_ok; nothing].
    unfold revoke_provider in H. destruct (ms_deleg st !! (did, provider)) as [dg|] eqn:Ed; [|discriminate].
    destruct (dg_revoked dg =? 0) eqn:Ez; [|discriminate]. inv_ok. cbn.
    split; [done|]. split; [prov_same|]. split.
    + intros p d Hno. rewrite lookup_insert_ne; [done|].
      eapply (not_about_ne _ (DelegationRevoked provider did)); [|by right; left|exact Hno]. left.
    + intros p d Hb. erewrite granted_insert; [|reflexivity]. cbn. destruct (_ && _); [|done]. lia.
  - destruct o as [who|]; [|discriminate].
    destruct (verify_signature cfg owner_proof _ _) eqn:E1; [|discriminate].
    destruct (verify_signature cfg new_key_proof _ _) eqn:E2; [|discriminate].
    destruct (msa_register_signature cfg env st owner_proof _) as [st1|] eqn:Er; [|discriminate].
    apply register_fields in Er as (r & -> & _).
    destruct (msa_register_signature cfg env _ new_key_proof _) as [st2|] eqn:Er; [|discriminate].
    apply register_fields in Er as (r2 & -> & _).
    destruct (ensure_msa_owner _ _ _); [|discriminate].
    destruct (add_key _ _ _ _) as [st3|] eqn:Ea; [|discriminate]. inv_ok.
    apply add_key_ok in Ea as (Hk & H8 & Hm & ->). cbn.
    split; [intros k; apply insert_key|]. split; [prov_same|]. split; done.
  - destruct o as [who|]; [|discriminate].
    destruct (ms_keys st !! who) as [m|] eqn:Ew; [|inv_ok; nothing].
    unfold delete_key_for_msa in H. destruct (ms_keys st !! key) eqn:Ek; [|discriminate]. inv_ok. cbn.
    split; [intros k; apply delete_key|]. split; [prov_same|]. split; done.
  - destruct o as [who|]; [|discriminate].
    destruct (ms_keys st !! who) as [pid|] eqn:Ew; [|inv_ok; nothing].
    unfold revoke_provider in H. destruct (ms_deleg st !! (delegator, pid)) as [dg|] eqn:Ed; [|discriminate].
    destruct (dg_revoked dg =? 0) eqn:Ez; [|discriminate]. inv_ok. cbn.
    split; [done|]. split; [prov_same|]. split.
    + intros p d Hno. rewrite lookup_insert_ne; [done|].
      eapply (not_about_ne _ (DelegationRevoked pid delegator)); [|by right; left|exact Hno]. left.
    + intros p d Hb. erewrite granted_insert; [|reflexivity]. cbn. destruct (_ && _); [|done]. lia.
  - destruct o as [who|]; [|discriminate]. unfold ensure_valid_msa_key in H.
    destruct (ms_keys st !! who) as [did|] eqn:Ew; [|discriminate].
    unfold revoke_permissions_for_schemas in H.
    destruct (ms_deleg st !! (did, provider)) as [dg|] eqn:Ed; [|discriminate].
    destruct (ensure_all_schema_ids_are_valid cfg env ids) eqn:Ev; [|discriminate].
    destruct (try_get_mut_schemas dg ids (e_block env)) as [d'|] eqn:Eg; [|discriminate]. inv_ok. cbn.
    apply try_get_mut_schemas_ok in Eg as (Hr & _).
    split; [done|]. split; [prov_same|]. split.
    + intros p d Hno. rewrite lookup_insert_ne; [done|].
      eapply (not_about_ne _ (DelegationUpdated provider did)); [|by right; right|exact Hno]. left.
    + intros p d Hb. erewrite granted_insert; [|reflexivity]. cbn.
      destruct (N.eqb_spec provider p) as [->|]; [destruct (N.eqb_spec did d) as [->|]|]; cbn; try done.
      unfold granted_now. by rewrite Ed, Hr.
  - destruct o as [who|]; [|discriminate].
    destruct (ms_keys st !! who) as [m|] eqn:Ew; [|inv_ok; nothing].
    unfold delete_key_for_msa in H. rewrite Ew in H. inv_ok. cbn.
    split; [intros k; apply delete_key|]. split; [prov_same|]. split; done.
  - unfold ensure_valid_msa_key in H. split_all H. nothing.
  - destruct o as [who|]; [discriminate|]. unfold ensure_valid_msa_key, create_provider_for in H.
    destruct (ms_keys st !! key) as [pid|] eqn:Ew; [|discriminate]. split_all H. cbn.
    split; [done|]. split; [|split; done]. intros p. destruct (decide (p = pid)) as [->|Hn].
    + rewrite lookup_insert. split; [intros _; right; left|intros _; by eexists].
    + rewrite lookup_insert_ne by done. split; [by left|]. intros [?|Hin]; [done|]. no_el Hin. congruence.
Qed.

Lemma step_accounted st x : accounted (s_env x) st (msa_step cfg st x) (step_events cfg st x).
Proof.
  assert (Hn : accounted (s_env x) st st []) by (unfold accounted; nothing).
  assert (Hc : accounted (s_env x) st (msa_call cfg (s_env x) st (s_origin x) (s_call x))
                 (call_events cfg (s_env x) st (s_origin x) (s_call x))).
  { unfold msa_call, call_events. destruct (msa_dispatch cfg _ st _ _) as [st'|] eqn:E; [|done].
    by apply dispatch_accounted. }
  unfold msa_step, step_events, msa_tx. destruct (s_top x); [|done].
  destruct (msa_validate _ st _ _); done.
Qed.

Lemma events_app st h1 h2 : msa_events cfg st (h1 ++ h2) = msa_events cfg st h1 ++ msa_events cfg (msa_run cfg st h1) h2.
Proof.
  revert st. induction h1 as [|x h IH]; intros st; [done|]. cbn. by rewrite IH, app_assoc.
Qed.

Lemma keys_from st h k : ms_keys (msa_run cfg st h) !! k = key_from k (msa_events cfg st h) (ms_keys st !! k).
Proof.
  revert st. induction h as [|x h IH]; intros st; [done|]. cbn [msa_run msa_events].
  rewrite IH. unfold key_from at 2. rewrite fold_left_app. fold (key_from k (step_events cfg st x) (ms_keys st !! k)).
  destruct (step_accounted st x) as [-> _]. done.
Qed.
Lemma keys_lemma h k m : controls (run h) k m <-> key_told k (events h) = Some m.
Proof. unfold controls. by rewrite keys_from. Qed.

Lemma prov_from st h p : is_Some (ms_prov (msa_run cfg st h) !! p) <-> is_Some (ms_prov st !! p) \/ ProviderCreated p ∈ msa_events cfg st h.
Proof.
  revert st. induction h as [|x h IH]; intros st; cbn [msa_run msa_events].
  - split; [by left|]. intros [?|Hin]; [done|by apply elem_of_nil in Hin].
  - rewrite IH, elem_of_app. destruct (step_accounted st x) as (_ & -> & _). tauto.
Qed.
Lemma providers_lemma h p : is_registered_provider (run h) p = true <-> provider_told p (events h).
Proof.
  unfold is_registered_provider, provider_told. pose proof (prov_from msa_genesis h p) as H. cbn in H. rewrite lookup_empty in H.
  destruct (ms_prov (run h) !! p) eqn:E.
  - split; [|done]. intros _. destruct H as [H _]. destruct H as [[? ?]|?]; [by eexists|done|done].
  - split; [done|]. intros Hin. destruct H as [_ H]. destruct H as [? ?]; [by right|done].
Qed.

Lemma deleg_from_run st h p d b : 0 < b -> blocks_from b h ->
  granted_now (msa_run cfg st h) p d = deleg_from p d (msa_events cfg st h) (granted_now st p d).
Proof.
  revert st b. induction h as [|x h IH]; intros st b Hb Hh; [done|]. cbn [msa_run msa_events blocks_from] in *.
  destruct Hh as [Hx Hh]. rewrite (IH _ (e_block (s_env x))) by (done || lia).
  unfold deleg_from at 2. rewrite fold_left_app. fold (deleg_from p d (step_events cfg st x) (granted_now st p d)).
  destruct (step_accounted st x) as (_ & _ & _ & ->); [done|lia].
Qed.
Lemma delegations_lemma h env p d : blocks_from 1 h -> last_block 1 h < e_block env ->
  delegation_ok env (run h) p d <-> delegation_told p d (events h) = true.
Proof.
  intros Hb Hl. pose proof (deleg_from_run msa_genesis h p d 1 ltac:(lia) Hb) as Hg.
  change (deleg_from p d (events h) (granted_now msa_genesis p d)) with (delegation_told p d (events h)) in Hg.
  rewrite <- Hg, delegation_ok_iff. unfold granted_now. pose proof (past_inv_run cfg h Hb) as Hp.
  destruct (ms_deleg (run h) !! (d, p)) as [dg|] eqn:E.
  - destruct (Hp _ _ E) as [Hr _]. rewrite N.eqb_eq. split; [|eauto].
    intros (? & [= <-] & [?|?]); [done|lia].
  - split; [|done]. by intros (? & ? & _).
Qed.

Lemma silent_lemma st x p d : (forall e, e ∈ step_events cfg st x -> ~ about p d e) ->
  forall env s,
  (delegation_ok env (msa_step cfg st x) p d <-> delegation_ok env st p d)
  /\ (schema_ok env (msa_step cfg st x) p d s <-> schema_ok env st p d s)
  /\ get_granted_schemas (msa_step cfg st x) d p = get_granted_schemas st d p.
Proof.
  intros Hno env s. destruct (step_accounted st x) as (_ & _ & H & _). specialize (H p d Hno).
  rewrite !delegation_ok_iff, !schema_ok_iff. unfold get_granted_schemas. by rewrite H.
Qed.

(** ** Retirement *)
Lemma all_top_snoc h x : all_top (h ++ [x]) -> all_top h /\ s_top x = true.
Proof. unfold all_top. rewrite Forall_app, Forall_singleton. done. Qed.

Lemma step_top st x : s_top x = true -> msa_step cfg st x = msa_tx cfg (s_env x) st (s_origin x) (s_call x).
Proof. unfold msa_step. by intros ->. Qed.

(** a MsaRetired event comes from retire_msa by a key of that MSA *)
Lemma retired_event st x m : MsaRetired m ∈ step_events cfg st x ->
  exists who st', s_origin x = Signed who /\ s_call x = RetireMsa /\ controls st who m
    /\ msa_dispatch cfg (s_env x) st (s_origin x) (s_call x) = Ok st' /\ msa_step cfg st x = st'.
Proof.
  assert (H : MsaRetired m ∈ call_events cfg (s_env x) st (s_origin x) (s_call x) ->
    exists who st', s_origin x = Signed who /\ s_call x = RetireMsa /\ controls st who m
      /\ msa_dispatch cfg (s_env x) st (s_origin x) (s_call x) = Ok st').
  { unfold call_events. destruct (msa_dispatch cfg _ st _ _) as [st'|] eqn:E; [|by intros ?%elem_of_nil].
    unfold msa_deposits. intros Hin. destruct (s_call x), (s_origin x) as [who|]; repeat (case_match; try (by apply elem_of_nil in Hin)); no_el Hin.
    injection Hin as ->. exists who, st'. done. }
  unfold step_events, msa_step, msa_tx, msa_call. destruct (s_top x).
  - destruct (msa_validate _ st _ _); [|by intros ?%elem_of_nil]. intros (who & st' & ? & ? & ? & E)%H.
    exists who, st'. by rewrite E.
  - intros (who & st' & ? & ? & ? & E)%H. exists who, st'. by rewrite E.
Qed.

Lemma issued_step h x m : issued (run h) m -> issued (run (h ++ [x])) m.
Proof.
  rewrite !issued_le, msa_run_app. cbn [msa_run]. intros H. split; [lia|].
  destruct (msa_step_cases cfg (run h) x) as [->|(st' & _ & Hd & ->)]; [lia|].
  apply dispatch_key_effect in Hd. destruct Hd; lia.
Qed.

Lemma retired_iff h m : all_top h ->
  MsaRetired m ∈ events h <-> issued (run h) m /\ forall k, ~ controls (run h) k m.
Proof.
  induction h as [|x h IH] using rev_ind; intros Ht.
  - cbn. split; [by intros ?%elem_of_nil|]. intros [Hi _]. by apply elem_of_nil in Hi.
  - apply all_top_snoc in Ht as [Ht Hx]. specialize (IH Ht). rewrite events_app, elem_of_app. cbn [msa_events].
    rewrite app_nil_r. rewrite msa_run_app. cbn [msa_run]. split.
    + intros [Hin|Hin].
      * apply IH in Hin as [Hi Hk]. split.
        -- pose proof (issued_step h x m Hi) as Hs. rewrite msa_run_app in Hs. exact Hs.
        -- intros k. pose proof (retired_lemma cfg h [x] m k Hi Hk) as Hr. exact Hr.
      * apply retired_event in Hin as (who & st' & Ho & Hc & Hw & Hd & Hs). split.
        -- pose proof (issued_step h x m) as Hs'. rewrite msa_run_app in Hs'. apply Hs'.
           destruct (ids_inv_run cfg h) as (_ & _ & Hci). by apply (Hci who).
        -- rewrite Hs. rewrite Hc, Ho in Hd. cbn in Hd. unfold controls in Hw. rewrite Hw in Hd.
           unfold delete_key_for_msa in Hd. rewrite Hw in Hd. injection Hd as Hd.
           assert (Hn : ~ controls (msa_tx cfg (s_env x) (run h) (s_origin x) (s_call x)) who m).
           { rewrite <- step_top, Hs, <- Hd by done. unfold controls. cbn. by rewrite lookup_delete. }
           destruct (detach_lemma cfg h (s_env x) (s_origin x) (s_call x) who m Ht Hw Hn) as (w & Ho' & _ & [[Hc' _]|(_ & _ & Hone)]); [congruence|].
           intros k Hk. rewrite <- Hd in Hk. unfold controls in Hk. cbn in Hk.
           apply lookup_delete_Some in Hk as [Hne Hk]. apply Hne. symmetry. by apply Hone.
    + intros [Hi Hk].
      destruct (decide (MsaRetired m ∈ events h)) as [|Hnot]; [by left|]. right.
      assert (Hiss : issued (run h) m).
      { apply issued_le. pose proof (proj1 (issued_le cfg (h ++ [x]) m)) as Hle. rewrite msa_run_app in Hle. cbn [msa_run] in Hle.
        specialize (Hle Hi). destruct (msa_step_cases cfg (run h) x) as [Es|(st' & _ & Hd & Es)]; rewrite Es in *; [done|].
        apply dispatch_key_effect in Hd. destruct Hd; try lia.
        destruct (decide (m = ms_max (run h) + 1)) as [->|]; [|lia].
        exfalso. apply (Hk key). unfold controls. rewrite H5. by rewrite lookup_insert. }
      assert (Hex : exists k, controls (run h) k m).
      { destruct (decide (kmap (ms_keys (run h)) m = ∅)) as [He|He].
        - exfalso. apply Hnot, IH. split; [done|]. intros k Hc.
          assert (kmap (ms_keys (run h)) m !! k = Some m) by (by apply map_filter_lookup_Some).
          rewrite He in H. done.
        - apply map_choose in He as (k & v & Hkv). apply map_filter_lookup_Some in Hkv as [Hkv Hv]. cbn in Hv. subst v. by exists k. }
      destruct Hex as [k Hc]. rewrite step_top in Hk by done.
      destruct (detach_lemma cfg h (s_env x) (s_origin x) (s_call x) k m Ht Hc (Hk k)) as (w & Ho & Hw & [[Hcall Hne]|(Hcall & -> & _)]).
      * destruct (detach_lemma cfg h (s_env x) (s_origin x) (s_call x) w m Ht Hw (Hk w)) as (w' & _ & _ & [[Hcall' _]|(Hcall' & _ & _)]); congruence.
      * unfold step_events. rewrite Hx. specialize (Hk k). unfold msa_tx, msa_call in Hk. unfold call_events.
        destruct (msa_validate _ _ _ _); [|done]. destruct (msa_dispatch _ _ _ _ _); [|done].
        rewrite Hcall, Ho. cbn. rewrite Hc. right; left.
Qed.
End proofs.

(** Proofs about the RPC methods (C130-C132). *)
From Verif Require Import Prelude Scale Utf8 Utf8Proofs CommonTypes SigModel MsaModel CapModel TrModel HModel ScModel StModel MgModel FeeModel RtModel.
From Verif Require Import MsaSpec StSpec HSpec MgSpec RtSpec RtMoreSpec RpcModel RpcSpec.
From Verif Require Import MsaDelegProofs HProofs HFinal MgProofs RtProofs RtProj.
From Verif Require RtProperties StProperties HProperties MgProperties ScSpec ScProofs ScFinal ScProperties StMoreProofs StPayloadProofs StProofs.

(** ** Delegations *)
Lemma check_delegation env st p d b :
  is_ok (ensure_valid_delegation env st p d (Some b)) = true <->
  b <= e_block env /\ exists dg, ms_deleg st !! (d, p) = Some dg /\ not_ended (dg_revoked dg) b.
Proof.
  unfold ensure_valid_delegation, not_ended. destruct (ms_deleg st !! (d, p)) as [dg|]; [|split; [done|by intros (_ & ? & ? & _)]].
  destruct (N.leb_spec b (e_block env)); cbn.
  - destruct (N.eqb_spec (dg_revoked dg) 0); cbn.
    + split; [|done]. intros _. split; [done|]. exists dg. split; [done|]. by left.
    + destruct (N.leb_spec b (dg_revoked dg)); cbn.
      * split; [|done]. intros _. split; [done|]. exists dg. split; [done|]. by right.
      * split; [done|]. intros (_ & ? & [= <-] & [?|?]); lia.
  - split; [done|]. intros [? _]. lia.
Qed.

Lemma api_iff st d p b sch : api_has_delegation st d p b sch = true <-> b <= rs_block st /\ grant_at st d p b sch.
Proof.
  unfold api_has_delegation, grant_at. destruct sch as [x|].
  - unfold ensure_valid_schema_grant.
    destruct (ensure_valid_delegation (env_msa st) (rs_msa st) p d (Some b)) as [dg|] eqn:E.
    + assert (H : is_ok (ensure_valid_delegation (env_msa st) (rs_msa st) p d (Some b)) = true) by (by rewrite E).
      apply check_delegation in H as (Hb & dg' & Hd & Hn).
      assert (dg' = dg) as ->.
      { unfold ensure_valid_delegation in E. rewrite Hd in E. destruct (b <=? e_block (env_msa st)); [|done].
        cbn in E. destruct (dg_revoked dg' =? 0); [congruence|]. destruct (b <=? dg_revoked dg'); cbn in E; congruence. }
      destruct (dg_perms dg !! x) as [r|] eqn:Er.
      * destruct (N.eqb_spec r 0); cbn.
        { split; [|done]. intros _. split; [exact Hb|]. exists dg. split; [done|]. split; [done|]. intros ? [= <-]. exists r. split; [done|by left]. }
        destruct (N.leb_spec b r); cbn.
        { split; [|done]. intros _. split; [exact Hb|]. exists dg. split; [done|]. split; [done|]. intros ? [= <-]. exists r. split; [done|by right]. }
        split; [done|]. intros (_ & dg2 & Hd2 & _ & Hx). rewrite Hd in Hd2. injection Hd2 as <-.
        destruct (Hx x eq_refl) as (r' & Hr' & [?|?]); rewrite Er in Hr'; injection Hr' as <-; lia.
      * split; [done|]. intros (_ & dg2 & Hd2 & _ & Hx). rewrite Hd in Hd2. injection Hd2 as <-.
        destruct (Hx x eq_refl) as (r' & Hr' & _). congruence.
    + split; [done|]. intros (Hb & dg & Hd & Hn & _).
      assert (H : is_ok (ensure_valid_delegation (env_msa st) (rs_msa st) p d (Some b)) = true) by (apply check_delegation; eauto).
      by rewrite E in H.
  - rewrite check_delegation. cbn [env_msa e_block]. split; intros (Hb & dg & Hd & Hn); (split; [exact Hb|]); exists dg.
    + done.
    + by destruct Hn.
Qed.

Lemma check_lemma st ds p b sch :
  length (rpc_check_delegations st ds p b sch) = length ds /\
  forall i d, ds !! i = Some d -> exists ok, rpc_check_delegations st ds p b sch !! i = Some (d, ok)
    /\ (ok = true <-> b <= rs_block st /\ grant_at st d p b sch).
Proof.
  unfold rpc_check_delegations. split; [apply map_length|]. intros i d Hi. exists (api_has_delegation st d p b sch).
  split; [|apply api_iff]. rewrite list_lookup_fmap, Hi. done.
Qed.

Lemma end_cases rev r b :
  not_ended (if (0 <? rev) && ((rev <? r) || (r =? 0)) then rev else r) b <-> not_ended rev b /\ not_ended r b.
Proof. unfold not_ended. destruct ((0 <? rev) && ((rev <? r) || (r =? 0))) eqn:E; lia. Qed.

Lemma granted_of_elem dg x e : (x, e) ∈ granted_of dg <->
  exists r, dg_perms dg !! x = Some r /\ e = if (0 <? dg_revoked dg) && ((dg_revoked dg <? r) || (r =? 0)) then dg_revoked dg else r.
Proof.
  unfold granted_of. rewrite elem_of_list_fmap. split.
  - intros ([i r] & He & Hin). apply elem_of_map_to_list in Hin. destruct (_ && _) eqn:E; injection He as -> ->; exists r; by rewrite E.
  - intros (r & Hr & ->). exists (x, r). split; [by destruct (_ && _)|by apply elem_of_map_to_list].
Qed.
Lemma granted_of_fst dg : map fst (granted_of dg) = map fst (map_to_list (dg_perms dg)).
Proof. unfold granted_of. rewrite map_map. apply map_ext. intros [i r]. by destruct (_ && _). Qed.
Lemma granted_of_nil dg : granted_of dg = [] <-> dg_perms dg = ∅.
Proof.
  unfold granted_of. split.
  - intros H. apply map_eq_nil in H. by apply map_to_list_empty_iff.
  - intros ->. by rewrite map_to_list_empty.
Qed.

Lemma all_granted_elem st d p gs : (p, gs) ∈ rpc_all_granted st d <-> exists dg, ms_deleg (rs_msa st) !! (d, p) = Some dg /\ gs = granted_of dg.
Proof.
  unfold rpc_all_granted. rewrite elem_of_list_omap. split.
  - intros ([[d' p'] dg] & Hin & Hf). apply elem_of_map_to_list in Hin. destruct (N.eqb_spec d' d) as [->|]; [|done]. injection Hf as -> <-. by exists dg.
  - intros (dg & Hd & ->). exists ((d, p), dg). split; [by apply elem_of_map_to_list|]. by rewrite N.eqb_refl.
Qed.

Lemma omap_nodup {A B} (f : A -> option B) l : NoDup l -> (forall x y b, x ∈ l -> y ∈ l -> f x = Some b -> f y = Some b -> x = y) -> NoDup (omap f l).
Proof.
  induction 1 as [|x l Hx Hl IH]; intros Hf; cbn; [constructor|].
  assert (IH' : NoDup (omap f l)) by (apply IH; intros a b c Ha Hb; apply Hf; by right).
  destruct (f x) as [b|] eqn:E; [|done]. constructor; [|done]. intros (y & Hy & Hfy)%elem_of_list_omap.
  apply Hx. by rewrite (Hf x y b ltac:(left) ltac:(by right) E Hfy).
Qed.

Lemma all_granted_nodup st d : NoDup (map fst (rpc_all_granted st d)).
Proof.
  assert (E : map fst (rpc_all_granted st d) = omap (fun '((d', p), _) => if d' =? d then Some p else None) (map_to_list (ms_deleg (rs_msa st)))).
  { unfold rpc_all_granted. generalize (map_to_list (ms_deleg (rs_msa st))). induction l as [|[[d' p] dg] l IH]; [done|]. cbn. destruct (d' =? d); cbn; by rewrite IH. }
  rewrite E. apply omap_nodup; [apply NoDup_map_to_list|].
  intros [[d1 p1] g1] [[d2 p2] g2] p H1 H2 E1 E2. destruct (N.eqb_spec d1 d) as [->|]; [|done]. destruct (N.eqb_spec d2 d) as [->|]; [|done].
  injection E1 as ->. injection E2 as ->. apply elem_of_map_to_list in H1, H2. congruence.
Qed.

Lemma all_granted_lemma st d :
  NoDup (map fst (rpc_all_granted st d)) /\
  (forall p, (exists gs, (p, gs) ∈ rpc_all_granted st d) <-> exists dg, ms_deleg (rs_msa st) !! (d, p) = Some dg) /\
  forall p gs, (p, gs) ∈ rpc_all_granted st d ->
    NoDup (map fst gs) /\ forall x b, grant_at st d p b (Some x) <-> exists e, (x, e) ∈ gs /\ not_ended e b.
Proof.
  split; [apply all_granted_nodup|]. split.
  - intros p. split.
    + intros (gs & (dg & Hd & _)%all_granted_elem). by exists dg.
    + intros (dg & Hd). exists (granted_of dg). apply all_granted_elem. by exists dg.
  - intros p gs (dg & Hd & ->)%all_granted_elem. split; [rewrite granted_of_fst; apply NoDup_fst_map_to_list|].
    intros x b. split.
    + intros (dg' & Hd' & Hn & Hx). rewrite Hd in Hd'. injection Hd' as <-. destruct (Hx x eq_refl) as (r & Hr & Hnr).
      eexists. split; [apply granted_of_elem; by exists r|]. by apply end_cases.
    + intros (e & (r & Hr & ->)%granted_of_elem & He). apply end_cases in He as [H1 H2].
      exists dg. split; [done|]. split; [done|]. intros ? [= <-]. by exists r.
Qed.

Lemma granted_lemma st d p l : rpc_granted_schemas st d p = Some l <-> (p, l) ∈ rpc_all_granted st d /\ l <> [].
Proof.
  unfold rpc_granted_schemas, get_granted_schemas. rewrite all_granted_elem.
  destruct (ms_deleg (rs_msa st) !! (d, p)) as [dg|]; [|split; [done|by intros ((? & ? & _) & _)]].
  case_bool_decide as E.
  - split; [done|]. intros ((? & [= <-] & ->) & Hn). by apply granted_of_nil in E.
  - split.
    + intros [= <-]. split; [by exists dg|]. intros H. by apply E, granted_of_nil.
    + intros ((? & [= <-] & ->) & _). done.
Qed.

(** The ends in a reachable state are not in the future. *)
Lemma ends_past cfg b mm v h : relays_from 0 h -> past_inv (rs_block (rt_run cfg (rt_start b mm v) h)) (rs_msa (rt_run cfg (rt_start b mm v) h)).
Proof.
  intros Hr. destruct (RtProperties.C109_projection cfg b mm v h Hr) as ((hm & Hm & Hb & Hl & _) & _). rewrite Hm.
  eapply past_inv_mono; [exact Hl|]. apply (msa_run_timed (r_msa cfg) past_inv); try done.
  - intros b1 b2 s. apply past_inv_mono.
  - intros. by eapply past_inv_step.
Qed.

Lemma listed_next cfg b mm v h d p x r : relays_from 0 h -> let s := rt_run cfg (rt_start b mm v) h in
  grant_at (next_block s r) d p (rs_block s + 1) (Some x) <-> exists gs, (p, gs) ∈ rpc_all_granted s d /\ (x, 0) ∈ gs.
Proof.
  intros Hr s. change (grant_at (next_block s r)) with (grant_at s). pose proof (ends_past cfg b mm v h Hr) as Hp. fold s in Hp.
  destruct (all_granted_lemma s d) as (_ & Hd & Ha). split.
  - intros Hg. pose proof Hg as (dg & Hdg & _). destruct (proj2 (Hd p) ltac:(by exists dg)) as [gs Hgs]. exists gs. split; [done|].
    destruct (Ha p gs Hgs) as [_ Hx]. apply Hx in Hg as (e & He & [->|Hle]); [done|].
    apply all_granted_elem in Hgs as (dg' & Hdg' & ->). rewrite Hdg in Hdg'. injection Hdg' as <-.
    apply granted_of_elem in He as (r0 & Hr0 & ->). destruct (Hp _ _ Hdg) as [P1 P2]. specialize (P2 _ _ Hr0).
    destruct (_ && _); lia.
  - intros (gs & Hgs & Hx). apply (proj2 (Ha p gs Hgs)). exists 0. split; [done|by left].
Qed.

Lemma post_lemma cfg b mm v h r k p d x payload : g_max (r_mg cfg) <= u32_max -> relays_from 0 h ->
  let s := rt_run cfg (rt_start b mm v) h in
  ms_keys (rs_msa s) !! k = Some p -> schema_at s x OnChain -> len payload <= g_max (r_mg cfg) ->
  is_ok (rt_dispatch cfg (RMessages (AddOnchainMessage (Some d) x payload)) (signed k) (next_block s r)) = true <->
  exists gs, (p, gs) ∈ rpc_all_granted s d /\ (x, 0) ∈ gs.
Proof.
  intros Hm Hr s Hk (i & Hi & Hloc) Hlen. pose proof (listed_next cfg b mm v h d p x r Hr) as Hn. fold s in Hn. cbn zeta in Hn. rewrite <- Hn. clear Hn.
  cbn [rt_dispatch o_who signed base_filter is_create_call o_filter]. rewrite andb_false_r. cbn [negb andb].
  set (n := next_block s r).
  transitivity (is_ok (mg_dispatch (r_mg cfg) (env_mg n) (rs_mg n) (Signed k) (AddOnchainMessage (Some d) x payload)) = true).
  { destruct (mg_dispatch _ _ _ _ _); done. }
  rewrite (accepted_iff _ Hm).
  assert (Hblk : mg_block (rs_mg n) = rs_block s + 1).
  { destruct (RtProperties.C109_projection cfg b mm v h Hr) as (_ & _ & _ & _ & (hg & _ & Hg) & _). fold s in Hg. cbn. by rewrite Hg. }
  rewrite Hblk. unfold MgSpec.acceptable. cbn [call_schema env_mg gv_msa gv_schema gv_env].
  change (rs_msa n) with (rs_msa s). change (rs_sc n) with (rs_sc s).
  assert (Hs : forall m, schema_ok {| e_block := rs_block s + 1; e_max_schema := e_max_schema (env_msa n); e_has_handle := e_has_handle (env_msa n) |} (rs_msa s) m d x
     <-> grant_at n d m (rs_block s + 1) (Some x)).
  { intros m. unfold schema_ok. cbn [e_block]. 
    change {| e_block := rs_block s + 1; e_max_schema := _; e_has_handle := _ |} with (env_msa n).
    change (rs_msa s) with (rs_msa n). change (is_ok (ensure_valid_schema_grant (env_msa n) (rs_msa n) m d x (rs_block s + 1))) with (api_has_delegation n d m (rs_block s + 1) (Some x)).
    rewrite api_iff. change (rs_block n) with (rs_block s + 1). split; [by intros [_ ?]|]. intros ?. split; [lia|done]. }
  split.
  - intros (who & m & info & [= <-] & Hc & _ & _ & _ & Hg). assert (m = p) as -> by (unfold controls in Hc; congruence). by apply Hs, Hg.
  - intros Hg. exists k, p, i. split; [done|]. split; [exact Hk|]. split; [exact Hi|]. split; [exact Hloc|]. split; [exact Hlen|].
    intros ? [= <-]. by apply Hs.
Qed.

(** ** Handles *)
Lemma build_len s x d : build_full_display_handle s x = Ok d -> len d <= 38.
Proof. unfold build_full_display_handle. cbv zeta. destruct (_ <=? _) eqn:E; [|done]. intros [= <-]. change (HModel.HANDLE_BYTES_MAX + SUFFIX_MAX_DIGITS + 1) with 38 in E. by apply N.leb_le in E. Qed.

Section handles.
Variable cfg : HCfg.
Definition names_short (st : HState) : Prop := forall m d e, hs_name st !! m = Some (d, e) -> len d <= 38.

Lemma claim_short st m p st' d : do_claim cfg st m p = Ok (st', d) -> names_short st -> names_short st'.
Proof.
  unfold do_claim. intros H K. destruct (match hs_name st !! m with None => true | Some _ => false end); [|done].
  destruct (validate_base_handle (hp_base p)) as [s|]; [|done]. destruct (canonical_base cfg s) as [c b].
  destruct (validate_supported c); [|done]. destruct (validate_canonical_length c); [|done].
  destruct (next_suffix_index cfg st b) as [i|]; [|done]. destruct (generate_suffix cfg c i) as [x|]; [|done].
  destruct (build_full_display_handle s x) as [full|] eqn:E; [|done]. injection H as <- <-.
  intros m' d' e'. cbn. intros [[<- [= <- <-]]|[_ H]]%lookup_insert_Some; [by eapply build_len|by eapply K].
Qed.
Lemma retire_short st m st' d : do_retire cfg st m = Ok (st', d) -> names_short st -> names_short st'.
Proof.
  unfold do_retire. intros H K. destruct (hs_name st !! m) as [[dd e]|]; [|done]. destruct (from_utf8 dd); [|done].
  destruct (split_display_name _) as [[b x]|]; [|done]. destruct (canonical_base cfg b). injection H as <- <-.
  intros m' d' e'. cbn. intros [_ H]%lookup_delete_Some. by eapply K.
Qed.
Lemma dispatch_short env st o c st' : h_dispatch cfg env st o c = Ok st' -> names_short st -> names_short st'.
Proof.
  intros H K. unfold h_dispatch in H. destruct o as [who|]; [|done]. destruct c as [k f p| |k f p].
  - unfold claim_handle in H. destruct (claim_checks cfg env k f p) as [m|]; [|done]. destruct (do_claim cfg st m p) as [[st1 d]|] eqn:E; [|done].
    injection H as <-. by eapply (claim_short st m p st1 d E).
  - unfold retire_handle in H. destruct (he_msa_of env who) as [m|]; [|done]. destruct (do_retire cfg st m) as [[st1 d]|] eqn:E; [|done].
    injection H as <-. by eapply (retire_short st m st1 d E).
  - unfold change_handle in H. destruct (claim_checks cfg env k f p) as [m|]; [|done]. destruct (hs_name st !! m); [|done].
    destruct (do_retire cfg st m) as [[st1 old]|] eqn:E; [|done]. destruct (do_claim cfg _ m p) as [[st2 d]|] eqn:E2; [|done].
    injection H as <-. eapply (claim_short _ m p st2 d E2). by eapply (retire_short st m st1 old E).
Qed.
Lemma short_run h : names_short (h_run cfg h_genesis h).
Proof.
  assert (G : forall st, names_short st -> names_short (h_run cfg st h)); [|apply G; by intros ? ? ?; cbn; rewrite lookup_empty].
  unfold h_run. induction h as [|x h IH]; intros st K; [done|]. cbn. apply IH. unfold h_step. destruct (h_apply cfg st x) as [st'|] eqn:E; [|done].
  apply apply_dispatch in E. by eapply dispatch_short.
Qed.
End handles.

Section names.
Variables (cfg : RtCfg) (b : gmap N N) (mm : N) (v : TrState) (h : list RtStep).
Hypotheses (Hg : rng_ok (h_rng (r_h cfg))) (Ho : range_ok (r_h cfg)) (Hr : relays_from 0 h).
Let s := rt_run cfg (rt_start b mm v) h.
Lemma handles_run : exists hh, rs_h s = h_run (r_h cfg) h_genesis hh.
Proof. destruct (RtProperties.C109_projection cfg b mm v h Hr) as (_ & _ & (hh & Hh & _) & _). by exists hh. Qed.

Lemma name_accepted m r : rpc_handle_for_msa cfg s m = Some r ->
  exists text, typed_as text (full_name_of r)
    /\ (exists a, rpc_msa_for_handle cfg s text = Ok a) /\ (hr_canonical r <> [] -> rpc_msa_for_handle cfg s text = Ok (Some m)).
Proof.
  unfold rpc_handle_for_msa. destruct handles_run as [hh Hh]. rewrite Hh. intros H.
  destruct (HProperties.C51_own_name_has_own_parts _ _ _ _ Hg Ho H) as (t & Ht & Hc & Hp & _).
  destruct (handle_facts _ Ho _ _ _ (run_inv _ Hg Ho hh) H) as (_ & _ & e & _ & _ & _ & _ & _ & Hn).
  assert (Hl : len (full_name_of r) <= 38) by (by eapply (short_run (r_h cfg) hh)).
  assert (Hu : exists text, from_utf8 (full_name_of r) = Some text).
  { unfold parts in Hp. fold (full_name_of r) in Hp. destruct (from_utf8 (full_name_of r)); [eauto|done]. }
  destruct Hu as [text Hu]. apply utf8_from in Hu as [Hs Ht']. exists text. split; [done|].
  assert (E : rpc_msa_for_handle cfg s text = Ok (get_msa_id_for_handle (r_h cfg) (rs_h s) (full_name_of r))).
  { unfold rpc_msa_for_handle. rewrite Ht'. change DISPLAY_BYTES_MAX with 38. by rewrite (proj2 (N.leb_le _ _) Hl). }
  rewrite E, Hh. split; [by eexists|]. intros Hne. f_equal. eapply (HProperties.C51_lookup_complete_partial _ hh _ m r t _ Hg Ho H Hne Hp); [done|done].
Qed.

Lemma lookup_is text m : rpc_msa_for_handle cfg s text = Ok (Some m) ->
  exists t x r, parts (utf8 text) = Some (t, x) /\ rpc_handle_for_msa cfg s m = Some r /\ hr_canonical r = budget (r_h cfg) t /\ hr_suffix r = x.
Proof.
  unfold rpc_msa_for_handle. destruct (_ <=? _); [|done]. intros [= H]. unfold rpc_handle_for_msa.
  destruct handles_run as [hh Hh]. rewrite Hh in *. by apply (HProperties.C51_lookup_sound _ hh _ m Hg Ho).
Qed.

Lemma next_suffix r who c k text s' : asks_for c k (utf8 text) ->
  rt_dispatch cfg (RHandles c) (signed who) (next_block s r) = Ok s' ->
  exists x m a, rpc_next_suffixes cfg s text None = Ok (utf8 text, [x]) /\ ms_keys (rs_msa s) !! k = Some m
    /\ rpc_handle_for_msa cfg s' m = Some a /\ hr_base a = utf8 text /\ hr_suffix a = x.
Proof.
  intros Ha H. pose proof (leaf_inv cfg (RHandles c) (signed who) (next_block s r) s' ltac:(done) H) as [_ (x & Hx & ->)].
  change (rs_h (next_block s r)) with (rs_h s) in Hx. destruct handles_run as [hh Hh]. rewrite Hh in Hx.
  set (e := {| hx_env := env_h (next_block s r); hx_top := false; hx_origin := Some who; hx_call := c |}).
  assert (Hap : h_apply (r_h cfg) (h_run (r_h cfg) h_genesis hh) e = Ok x) by exact Hx.
  assert (Hc : exists f p, claim_of (hx_call e) = Some (k, f, p) /\ hp_base p = utf8 text /\ acts_on e = ms_keys (rs_msa s) !! k).
  { cbn [e hx_call]. inversion Ha as [k' f p|k' f p]; subst; exists f, p; done. }
  destruct Hc as (f & p & Hc & Hb & Hact).
  destruct (HProperties.C51_claim_gives_handle _ hh e k f p x Hg Ho Hap Hc) as (m & t & y & Hm & Ht & Hy & Hget & _).
  assert (Hlen : len (hp_base p) <= 32).
  { change (h_dispatch (r_h cfg) (env_h (next_block s r)) (h_run (r_h cfg) h_genesis hh) (Some who) c = Ok x) in Hx.
    assert (Hok : is_ok (h_dispatch (r_h cfg) (env_h (next_block s r)) (h_run (r_h cfg) h_genesis hh) (Some who) c) = true) by (by rewrite Hx).
    destruct c as [k1 f1 p1| |k1 f1 p1]; [|done|].
    - apply dispatch_claim_iff in Hok as (_ & ? & ? & (Hl & _) & _); [|done|done|by apply run_inv]. cbn in Hc. by injection Hc as <- <- <-.
    - apply dispatch_change_iff in Hok as (_ & ? & ? & (Hl & _) & _); [|done|done|by apply run_inv]. cbn in Hc. by injection Hc as <- <- <-. }
  exists y, m, {| hr_base := hp_base p; hr_canonical := budget (r_h cfg) t; hr_suffix := y |}.
  split; [|split; [congruence|split; [exact Hget|by split]]].
  unfold rpc_next_suffixes. rewrite <- Hb. change HANDLE_BYTES_MAX with 32. rewrite (proj2 (N.leb_le _ _) Hlen). do 2 f_equal.
  change (N.min (default DEFAULT_SUFFIX_COUNT None) MAX_SUFFIXES_COUNT) with 1. rewrite Hh.
  pose proof (next_length_lemma _ Hg Ho hh _ t 1 Ht) as Hn. destruct (get_next_suffixes _ _ _ 1) as [|a [|a' l]]; [done| |].
  - by injection Hy as ->.
  - rewrite !len_cons in Hn. lia.
Qed.

Lemma next_list text count : typed_as text (utf8 text) -> len (utf8 text) <= 32 ->
  exists l, rpc_next_suffixes cfg s text count = Ok (utf8 text, l) /\ NoDup l
    /\ len l = N.min (N.min (default 1 count) 100) (h_max (r_h cfg) + 1 - h_min (r_h cfg) - N.of_nat (used (r_h cfg) (budget (r_h cfg) text) (claimed (rs_h s))))
    /\ forall x, x ∈ l -> h_min (r_h cfg) <= x <= h_max (r_h cfg)
        /\ forall m d t x', (m, d) ∈ claimed (rs_h s) -> parts d = Some (t, x') -> form (r_h cfg) t = form (r_h cfg) text -> x' <> x.
Proof.
  intros [Hs _] Hl. unfold rpc_next_suffixes. change HANDLE_BYTES_MAX with 32. rewrite (proj2 (N.leb_le _ _) Hl).
  eexists. split; [done|]. destruct handles_run as [hh Hh]. rewrite Hh.
  exact (HProperties.C59_next_suffixes (r_h cfg) hh (utf8 text) text _ Hg Ho (from_utf8_utf8 _ Hs)).
Qed.

Lemma invalid_refused r who c k text : asks_for c k (utf8 text) -> rpc_validate_handle cfg text = false ->
  is_ok (rt_dispatch cfg (RHandles c) (signed who) (next_block s r)) = false.
Proof.
  intros Ha Hv. destruct (rt_dispatch cfg (RHandles c) (signed who) (next_block s r)) as [s'|] eqn:H; [|done]. exfalso.
  pose proof (leaf_inv cfg (RHandles c) (signed who) (next_block s r) s' ltac:(done) H) as [_ (x & Hx & ->)].
  change (rs_h (next_block s r)) with (rs_h s) in Hx. destruct handles_run as [hh Hh]. rewrite Hh in Hx.
  assert (Hok : is_ok (h_dispatch (r_h cfg) (env_h (next_block s r)) (h_run (r_h cfg) h_genesis hh) (Some who) c) = true) by (unfold signed in Hx; cbn [o_who] in Hx; by rewrite Hx).
  assert (K : exists t, len (utf8 text) <= 32 /\ HSpec.acceptable (r_h cfg) (utf8 text) t).
  { inversion Ha as [k' f p E1 E2 E3|k' f p E1 E2 E3]; subst c.
    - apply dispatch_claim_iff in Hok as (_ & ? & t & (Hl & _ & _ & _ & Hac & _) & _); [|done|done|by apply run_inv]. exists t. exact (conj Hl Hac).
    - apply dispatch_change_iff in Hok as (_ & ? & t & (Hl & _ & _ & _ & Hac & _) & _); [|done|done|by apply run_inv]. exists t. exact (conj Hl Hac). }
  destruct K as (t & Hl & Hac). unfold rpc_validate_handle in Hv. change HANDLE_BYTES_MAX with 32 in Hv. rewrite (proj2 (N.leb_le _ _) Hl) in Hv.
  by rewrite (validate_lemma _ _ _ Hac) in Hv.
Qed.
End names.

(** ** Storage *)
Section storage.
Variables (cfg : RtCfg) (b : gmap N N) (mm : N) (v : TrState) (h : list RtStep).
Hypotheses (Hz : sizes_ok (r_st cfg)) (Hh : hashes_ok (r_st cfg)) (Hkh : key_hash_ok (r_st cfg)) (Hr : relays_from 0 h).
Let s := rt_run cfg (rt_start b mm v) h.
Let c := r_st cfg.

Lemma storage_run : exists ht, rs_st s = StProperties.st_after c ht /\ envs_ok ht.
Proof. destruct (RtProperties.C109_projection cfg b mm v h Hr) as (_ & _ & _ & (ht & Ht & He) & _). by exists ht. Qed.
Lemma env_next r : env_ok (env_st (next_block s r)).
Proof.
  destruct (RtProperties.C109_projection cfg b mm v h Hr) as ((hm & Hm & _) & _). fold s in Hm.
  exact (StPayloadProofs.reachable_env_ok (r_msa cfg) hm (env_st (next_block s r)) Hm).
Qed.
Lemma msa_small k m : ms_keys (rs_msa s) !! k = Some m -> m <= u64_max.
Proof. intros Hk. exact (env_next 0 k m Hk). Qed.

Lemma pages_ok_iff m x : (exists l, rpc_pages cfg s m x = Ok l) <-> schema_at s x Paginated.
Proof.
  unfold rpc_pages, get_paginated_storage, check_schema_for_read, schema_at. cbn [env_st v_schema].
  destruct (get_schema_info_by_id (rs_sc s) x) as [i|].
  - case_bool_decide as E; cbn.
    + split; intros _; [by exists i|by eexists].
    + split; [by intros [? ?]|]. by intros (? & [= <-] & ?).
  - split; [by intros [? ?]|]. by intros (? & ? & _).
Qed.
Lemma items_ok_iff m x : m <= u64_max -> x <= u16_max -> (exists a, rpc_items cfg s m x = Ok a) <-> schema_at s x Itemized.
Proof.
  intros Hm Hx. destruct storage_run as (ht & Ht & He). unfold rpc_items, schema_at. rewrite Ht. split.
  - intros [[[hash nonce] l] H]. destruct (get_itemized_storage _ _ _ _ _) as [r|] eqn:E; [|done]. injection H as ->.
    apply (StProperties.C49_items_exact _ ht _ m x _ _ _ Hz Hh He Hm Hx) in E as [E _]. exact E.
  - intros Hi. pose proof (StProofs.run_inv c Hz Hh ht He) as I.
    destruct (StMoreProofs.itemized_storage_ok c Hz Hh (env_st s) _ m x I (conj Hm Hx) Hi) as (a & n & l & E).
    change (r_st cfg) with c. unfold StProperties.st_after. rewrite E. by eexists.
Qed.

(** a call in the next block *)
Lemma storage_call r k call : is_ok (rt_dispatch cfg (RStorage call) (signed k) (next_block s r)) = true <->
  is_ok (st_dispatch c (env_st (next_block s r)) (rs_st s) (Signed k) call) = true.
Proof.
  cbn [rt_dispatch o_who signed base_filter is_create_call o_filter]. rewrite andb_false_r. cbn [negb andb].
  change (rs_st (next_block s r)) with (rs_st s). change (r_st cfg) with c. by destruct (st_dispatch _ _ _ _ _).
Qed.
Lemma storage_effect r k call s' : rt_dispatch cfg (RStorage call) (signed k) (next_block s r) = Ok s' ->
  exists x, st_dispatch c (env_st (next_block s r)) (rs_st s) (Signed k) call = Ok x /\ s' = up_st_ (next_block s r) x.
Proof.
  intros H. pose proof (leaf_inv cfg (RStorage call) (signed k) (next_block s r) s' ltac:(done) H) as [_ (x & Hx & ->)]. by exists x.
Qed.

Lemma page_read m x l page : rpc_pages cfg s m x = Ok l -> m <= u64_max -> x <= u16_max -> page <= u16_max ->
  exists cur, read c (rs_st s) (PageLoc m x page) = Ok cur
    /\ match cur with Some p => forall hash, listed l page hash <-> hash = content_hash c cur | None => forall hash, ~ listed l page hash end.
Proof.
  intros H Hm Hx Hp. destruct storage_run as (ht & Ht & He). unfold rpc_pages in H.
  destruct (get_paginated_storage _ _ _ _ _) as [l'|] eqn:E; [|done]. injection H as ->. rewrite Ht in E |- *.
  destruct (StProperties.C49_listing_exact _ ht _ m x l Hz Hh Hkh He Hm Hx E) as [_ Hl].
  destruct (StProperties.C41_pages_within_limits c ht (PageLoc m x page) Hz Hh He (conj Hm (conj Hx Hp))) as (cur & Hc & _).
  exists cur. split; [exact Hc|]. unfold listed. destruct cur as [[n data]|].
  - intros hash. split.
    + intros (n' & data' & Hi). apply Hl in Hi as (_ & Hrd & ->). change (r_st cfg) with c in Hrd. rewrite Hc in Hrd. by injection Hrd as -> ->.
    + intros ->. exists n, data. apply Hl. done.
  - intros hash (n' & data' & Hi). apply Hl in Hi as (_ & Hrd & _). change (r_st cfg) with c in Hrd. by rewrite Hc in Hrd.
Qed.

Lemma upsert_lemma m x l r k page hash data :
  rpc_pages cfg s m x = Ok l -> ms_keys (rs_msa s) !! k = Some m ->
  x <= u16_max -> page <= u16_max -> hash <= u32_max -> Forall (fun y => y <= u8_max) data ->
  is_ok (rt_dispatch cfg (RStorage (UpsertPage m x page hash data)) (signed k) (next_block s r)) = true <->
  page <= f_max_page_id c /\ len data <= f_max_page c /\ (listed l page hash \/ hash = 0 /\ forall h', ~ listed l page h').
Proof.
  intros H Hk Hx Hp Hhash Hd. pose proof (msa_small k m Hk) as Hm. rewrite storage_call.
  destruct (page_read m x l page H Hm Hx Hp) as (cur & Hc & Hl). destruct storage_run as (ht & Ht & He). rewrite Ht in Hc |- *.
  pose proof (proj1 (pages_ok_iff m x) ltac:(by eexists)) as (i & Hi & Hloc).
  rewrite (StProperties.C43_accepted_iff c ht _ (Signed k) _ Hz Hh He (env_next r)). cbn [call_ok request].
  assert (Hdb : forallb (fun y => y <=? u8_max) data = true).
  { rewrite forallb_forall. intros y Hy. rewrite Forall_forall in Hd. apply N.leb_le, Hd. by apply elem_of_list_In. }
  unfold bytes_ok. rewrite Hdb. split.
  - intros (Hok & rq & cur' & new & [= <-] & Hid & _ & Hrd & Hexp & _). cbn [rq_loc rq_target rq_change] in *.
    rewrite Hc in Hrd. injection Hrd as <-. split; [exact Hid|]. split; [lia|]. destruct Hexp as [Hexp|[_ ?]]; [|done]. cbn [rq_target] in Hexp.
    destruct cur as [p|]; [left; by apply Hl|right]. split; [exact Hexp|exact Hl].
  - intros (Hid & Hlen & Hcase). split; [lia|].
    exists {| rq_loc := PageLoc m x page; rq_target := hash; rq_change := ChWrite data |}, cur, (Some {| pg_nonce := next_nonce cur; pg_data := data |}).
    cbn [rq_loc rq_target rq_change]. split; [done|]. split; [exact Hid|]. split.
    { unfold permitted. cbn [signature_of rq_loc loc_msa loc_schema].
      assert (Hown : sent_by_owner (env_st (next_block s r)) (Signed k) m) by (exists k; split; [done|exact Hk]).
      split; [by left|]. exists i. split; [exact Hi|]. split; [exact Hloc|]. split; [done|]. cbn. tauto. }
    split; [exact Hc|]. split; [|constructor]. left. cbn [rq_target].
    destruct cur as [p|].
    + destruct Hcase as [Hcase|[_ Hno]]; [by apply Hl|]. exfalso. apply (Hno (content_hash c (Some p))). by apply Hl.
    + destruct Hcase as [Hcase|[-> _]]; [by apply Hl in Hcase|done].
Qed.

Lemma delete_lemma m x l r k page hash :
  rpc_pages cfg s m x = Ok l -> ms_keys (rs_msa s) !! k = Some m ->
  x <= u16_max -> page <= u16_max -> hash <= u32_max ->
  is_ok (rt_dispatch cfg (RStorage (DeletePage m x page hash)) (signed k) (next_block s r)) = true <->
  page <= f_max_page_id c /\ (listed l page hash \/ forall h', ~ listed l page h')
  /\ forall i, get_schema_info_by_id (rs_sc s) x = Some i -> set_append_only (si_settings i) = false.
Proof.
  intros H Hk Hx Hp Hhash. pose proof (msa_small k m Hk) as Hm. rewrite storage_call.
  destruct (page_read m x l page H Hm Hx Hp) as (cur & Hc & Hl). destruct storage_run as (ht & Ht & He). rewrite Ht in Hc |- *.
  pose proof (proj1 (pages_ok_iff m x) ltac:(by eexists)) as (i & Hi & Hloc).
  rewrite (StProperties.C43_accepted_iff c ht _ (Signed k) _ Hz Hh He (env_next r)). cbn [call_ok request]. split.
  - intros (Hok & rq & cur' & new & [= <-] & Hid & Hper & Hrd & Hexp & _). cbn [rq_loc rq_target rq_change] in *.
    rewrite Hc in Hrd. injection Hrd as <-. split; [exact Hid|]. split.
    + destruct cur as [p|]; [left; apply Hl|right; exact Hl]. by destruct Hexp as [Hexp|[? _]].
    + intros i' Hi'. rewrite Hi in Hi'. injection Hi' as <-. destruct Hper as [_ (i' & Hi' & _ & _ & Hap)].
      cbn [env_st v_schema rq_loc loc_schema] in Hi'. change (rs_sc (next_block s r)) with (rs_sc s) in Hi'. rewrite Hi in Hi'. injection Hi' as <-.
      destruct (set_append_only (si_settings i)); [|done]. exfalso. by apply Hap.
  - intros (Hid & Hcase & Hap). split; [lia|].
    exists {| rq_loc := PageLoc m x page; rq_target := hash; rq_change := ChDelete |}, cur, None.
    cbn [rq_loc rq_target rq_change]. split; [done|]. split; [exact Hid|]. split.
    { unfold permitted. cbn [signature_of rq_loc loc_msa loc_schema].
      assert (Hown : sent_by_owner (env_st (next_block s r)) (Signed k) m) by (exists k; split; [done|exact Hk]).
      split; [by left|]. exists i. split; [exact Hi|]. split; [exact Hloc|]. split; [done|]. rewrite (Hap i Hi). done. }
    split; [exact Hc|]. split; [|constructor]. unfold expects. cbn [rq_target rq_change].
    destruct cur as [p|]; [left|by right]. destruct Hcase as [Hcase|Hno]; [by apply Hl|]. exfalso. apply (Hno (content_hash c (Some p))). by apply Hl.
Qed.

(** the answer after a call *)
Lemma after_snoc ht e st' : st_dispatch c (x_env e) (StProperties.st_after c ht) (x_origin e) (x_call e) = Ok st' ->
  StProperties.st_after c (ht ++ [e]) = st'.
Proof. intros H. unfold StProperties.st_after, st_run in *. rewrite fold_left_app. cbn [fold_left]. unfold st_step at 1. by rewrite H. Qed.
Lemma upsert_effect m x l r k page hash data s' :
  rpc_pages cfg s m x = Ok l -> x <= u16_max -> page <= u16_max -> m <= u64_max ->
  rt_dispatch cfg (RStorage (UpsertPage m x page hash data)) (signed k) (next_block s r) = Ok s' ->
  exists l', rpc_pages cfg s' m x = Ok l' /\
    (exists hash' n, (page, hash', n, data) ∈ l') /\
    forall page' e n d, page' <> page -> (page', e, n, d) ∈ l' <-> (page', e, n, d) ∈ l.
Proof.
  intros H Hx Hp Hm Hd. apply storage_effect in Hd as (st' & Hd & ->). destruct storage_run as (ht & Ht & He).
  rewrite Ht in Hd. set (e := {| x_env := env_st (next_block s r); x_origin := Signed k; x_call := UpsertPage m x page hash data |}).
  assert (Hst : st' = StProperties.st_after c (ht ++ [e])).
  { symmetry. by apply after_snoc. }
  assert (He' : envs_ok (ht ++ [e])) by (apply Forall_app; split; [done|]; constructor; [apply env_next|constructor]).
  pose proof (proj1 (pages_ok_iff m x) ltac:(by eexists)) as (i & Hi & Hloc).
  assert (Hex : exists l', rpc_pages cfg (up_st_ (next_block s r) st') m x = Ok l').
  { unfold rpc_pages, get_paginated_storage, check_schema_for_read. cbn [env_st v_schema up_st_ rs_sc next_block]. rewrite Hi, bool_decide_eq_true_2 by done. by eexists. }
  destruct Hex as [l' Hl']. exists l'. split; [exact Hl'|].
  unfold rpc_pages in Hl', H. destruct (get_paginated_storage (r_st cfg) _ (rs_st s) m x) as [l1|] eqn:E1; [|done]. injection H as ->.
  destruct (get_paginated_storage (r_st cfg) _ (rs_st (up_st_ _ _)) m x) as [l2|] eqn:E2; [|done]. injection Hl' as ->.
  cbn [up_st_ rs_st] in E2. rewrite Hst in E2. rewrite Ht in E1.
  destruct (StProperties.C49_listing_exact _ ht _ m x l Hz Hh Hkh He Hm Hx E1) as [_ L1].
  destruct (StProperties.C49_listing_exact _ (ht ++ [e]) _ m x l' Hz Hh Hkh He' Hm Hx E2) as [_ L2].
  destruct (StProperties.C43_accepted_effect c ht _ _ _ st' Hz Hh He (env_next r) Hd) as (rq & cur & new & [= <-] & Hrd & _ & Hb & Hnew).
  cbn [rq_loc rq_change] in *. inversion Hb; subst new.
  split.
  - eexists _, _. apply L2. split; [done|]. change (r_st cfg) with c. rewrite <- Hst. split; [exact Hnew|done].
  - intros page' e0 n d0 Hne. rewrite L1, L2. change (r_st cfg) with c. rewrite <- Hst.
    assert (Hsame : page' <= u16_max -> read c st' (PageLoc m x page') = read c (StProperties.st_after c ht) (PageLoc m x page')).
    { intros Hp'. pose proof (StProofs.run_inv c Hz Hh ht He) as I.
      destruct (StProofs.dispatch_reads c Hz Hh _ _ _ _ _ I (env_next r) Hd) as (rq & cur' & new & [= <-] & _ & _ & _ & _ & _ & _ & _ & Ho).
      apply Ho; [done|]. cbn. congruence. }
    change (r_st cfg) with c. split; intros (P & Q & R); (split; [exact P|]); specialize (Hsame P); split; try exact R; congruence.
Qed.

Lemma items_read m x hash nonce l : rpc_items cfg s m x = Ok (hash, nonce, l) -> m <= u64_max -> x <= u16_max ->
  schema_at s x Itemized /\ exists cur items, read c (rs_st s) (ItemLoc m x) = Ok cur /\ items_of cur items /\ l = numbered 0 items /\
      hash = content_hash c cur /\ nonce = match cur with Some p => pg_nonce p | None => 0 end.
Proof.
  intros H Hm Hx. destruct storage_run as (ht & Ht & He). unfold rpc_items in H. rewrite Ht in *.
  destruct (get_itemized_storage _ _ _ _ _) as [r|] eqn:E; [|done]. injection H as ->.
  by apply (StProperties.C49_items_exact _ ht _ m x _ _ _ Hz Hh He Hm Hx) in E.
Qed.

Lemma append_lemma m x h0 nonce l r k hash item :
  rpc_items cfg s m x = Ok (h0, nonce, l) -> ms_keys (rs_msa s) !! k = Some m -> 1 <= f_max_actions c -> f_max_blob c <= u16_max ->
  x <= u16_max -> hash <= u32_max -> Forall (fun y => y <= u8_max) item ->
  is_ok (rt_dispatch cfg (RStorage (ApplyItemActions m x hash [Add item])) (signed k) (next_block s r)) = true <->
  hash = h0 /\ len item <= f_max_blob c /\ len (page_bytes (map snd l)) + 2 + len item <= f_max_item_page c.
Proof.
  intros H Hk Ha Hbl Hx Hhash Hd. pose proof (msa_small k m Hk) as Hm. rewrite storage_call.
  destruct (items_read m x h0 nonce l H Hm Hx) as ((i & Hi & Hloc) & cur & items & Hc & Hit & -> & -> & ->).
  rewrite StProofs.numbered_snd.
  destruct storage_run as (ht & Ht & He). rewrite Ht in Hc |- *.
  rewrite (StProperties.C43_accepted_iff c ht _ (Signed k) _ Hz Hh He (env_next r)). cbn [call_ok request].
  assert (Hdb : forallb (fun y => y <=? u8_max) item = true).
  { rewrite forallb_forall. intros y Hy. rewrite Forall_forall in Hd. apply N.leb_le, Hd. by apply elem_of_list_In. }
  unfold actions_ok. cbn [forallb action_ok]. unfold bytes_ok. rewrite Hdb.
  change (len [Add item]) with 1.
  assert (Hpb : len (page_bytes (items ++ [item])) = len (page_bytes items) + 2 + len item).
  { rewrite StProofs.page_bytes_app. unfold page_bytes at 2. cbn [map concat]. unfold item_bytes. rewrite app_nil_r, !len_app.
    change (len (enc_u16 (len item))) with 2. lia. }
  split.
  - intros (Hok & rq & cur' & new & [= <-] & _ & _ & Hrd & Hexp & Hbec). cbn [rq_loc rq_target rq_change] in *.
    rewrite Hc in Hrd. injection Hrd as <-. split; [by destruct Hexp as [?|[_ ?]]|]. split; [lia|].
    inversion Hbec as [| |l0 items' new' Hit' Hnd Hf Hn Hm']; subst. assert (items' = items) as -> by (by eapply StProofs.items_of_inj).
    cbn [deleted added omap list_omap] in Hn. rewrite StMoreProofs.kept_nil in Hn. destruct new as [p|].
    + destruct Hn as (Hn & _ & _). destruct Hm' as [_ Hm']. rewrite Hn in Hm'. change (added [Add item]) with [item] in Hm'. lia.
    + cbn in Hn. by destruct items.
  - intros (-> & Hlen & Hfit). split; [lia|].
    exists {| rq_loc := ItemLoc m x; rq_target := content_hash c cur; rq_change := ChItems [Add item] |}, cur,
      (Some {| pg_nonce := next_nonce cur; pg_data := page_bytes (items ++ [item]) |}).
    cbn [rq_loc rq_target rq_change]. split; [done|]. split; [done|]. split.
    { unfold permitted. cbn [signature_of rq_loc loc_msa loc_schema].
      assert (Hown : sent_by_owner (env_st (next_block s r)) (Signed k) m) by (exists k; split; [done|exact Hk]).
      split; [by left|]. exists i. split; [exact Hi|]. split; [exact Hloc|]. split; [done|]. intros _ [j Hj]. cbn in Hj.
      apply elem_of_list_singleton in Hj. done. }
    split; [exact Hc|]. split; [by left|].
    econstructor; [exact Hit|by constructor|by constructor| |].
    + change (deleted [Add item]) with (@nil N). change (added [Add item]) with [item]. rewrite StMoreProofs.kept_nil. cbn [items_of pg_data].
      split; [done|]. split; [by destruct items|]. apply Forall_app. split; [|constructor; [lia|constructor]].
      destruct cur as [p|]; [by destruct Hit as (_ & _ & ?)|cbn in Hit; subst items; constructor].
    + cbn [pg_nonce pg_data]. split; [done|]. lia.
Qed.

Lemma append_effect m x h0 nonce l r k hash item s' :
  rpc_items cfg s m x = Ok (h0, nonce, l) -> m <= u64_max -> x <= u16_max ->
  rt_dispatch cfg (RStorage (ApplyItemActions m x hash [Add item])) (signed k) (next_block s r) = Ok s' ->
  exists h' n', rpc_items cfg s' m x = Ok (h', n', l ++ [(len l, item)]).
Proof.
  intros H Hm Hx Hd. destruct (items_read m x h0 nonce l H Hm Hx) as ((i & Hi & Hloc) & cur & items & Hc & Hit & -> & -> & ->).
  apply storage_effect in Hd as (st' & Hd & ->). destruct storage_run as (ht & Ht & He).
  rewrite Ht in Hd, Hc. set (e := {| x_env := env_st (next_block s r); x_origin := Signed k; x_call := ApplyItemActions m x hash [Add item] |}).
  assert (Hst : st' = StProperties.st_after c (ht ++ [e])).
  { symmetry. by apply after_snoc. }
  assert (He' : envs_ok (ht ++ [e])) by (apply Forall_app; split; [done|]; constructor; [apply env_next|constructor]).
  destruct (StProperties.C43_accepted_effect c ht _ _ _ st' Hz Hh He (env_next r) Hd) as (rq & cur' & new & [= <-] & Hrd & _ & Hb & Hnew).
  cbn [rq_loc rq_change] in *. rewrite Hc in Hrd. injection Hrd as <-.
  inversion Hb as [| |l0 items' new' Hit' Hnd Hf Hn Hm']; subst new' l0. assert (items' = items) as -> by (by eapply StProofs.items_of_inj).
  change (deleted [Add item]) with (@nil N) in Hn. change (added [Add item]) with [item] in Hn. rewrite StMoreProofs.kept_nil in Hn.
  exists (content_hash c new), (match new with Some p => pg_nonce p | None => 0 end).
  assert (E : get_itemized_storage c (env_st (up_st_ (next_block s r) st')) st' m x = Ok (content_hash c new, match new with Some p => pg_nonce p | None => 0 end, numbered 0 (items ++ [item]))).
  { rewrite Hst at 2. apply (StProperties.C49_items_exact c (ht ++ [e]) _ m x _ _ _ Hz Hh He' Hm Hx). split; [exists i; by split|].
    exists new, (items ++ [item]). rewrite <- Hst. done. }
  unfold rpc_items. change (rs_st (up_st_ (next_block s r) st')) with st'. change (r_st cfg) with c. rewrite E. do 2 f_equal.
  assert (G : forall a k, numbered k (a ++ [item]) = numbered k a ++ [(k + len a, item)]).
  { induction a as [|y a IH]; intros k0; cbn [app numbered]; [by rewrite len_nil, N.add_0_r|]. rewrite IH, len_cons. cbn [app]. do 4 f_equal. lia. }
  rewrite G. do 3 f_equal. assert (K : forall a k, len (numbered k a) = len a); [|by rewrite K].
  induction a as [|y a IH]; intros k0; cbn [numbered]; [done|]. by rewrite !len_cons, IH.
Qed.
End storage.

(** ** Schemas *)
Lemma versions_registered cfg b mm v h text l w : relays_from 0 h -> let s := rt_run cfg (rt_start b mm v) h in
  rpc_schema_versions s text = Some l -> w ∈ l -> is_Some (rpc_schema s (vr_id w)).
Proof.
  intros Hr s H Hw. destruct (RtProperties.C109_projection cfg b mm v h Hr) as (_ & (hs & Hs) & _). fold s in Hs.
  unfold rpc_schema_versions, rpc_schema in *. rewrite Hs in *.
  apply (ScProperties.C70_ids_dense (r_sc cfg) mm hs).
  assert (K : exists name, vr_id w ∈ ScSpec.named name (sc_run (r_sc cfg) (sc_genesis mm) hs)).
  { pose proof H as H'. unfold get_schema_versions in H'. destruct (len (utf8 text) <=? SCHEMA_NAME_BYTES_MAX) eqn:El; [|done].
    apply N.leb_le in El. destruct (ScModel.try_parse (utf8 text) false) as [n|] eqn:En; [|done]. clear H'.
    apply (ScProofs.parse_lax _ _ El) in En as [[Hc Hsp]|(_ & Hwd & Hlen & Hsp)].
    - pose proof (ScProperties.C71_versions (r_sc cfg) mm hs _ _ (conj El (conj Hc Hsp))) as Hv. cbn zeta in Hv. rewrite H in Hv. injection Hv as ->.
      apply ScFinal.versions_elem in Hw as (i & Hi & _). eexists. by eapply elem_of_list_lookup_2.
    - destruct (ScProperties.C71_namespace (r_sc cfg) mm hs _ _ El Hwd Hlen Hsp) as (l' & Hl' & _ & Hall). rewrite H in Hl'. injection Hl' as <-.
      apply Hall in Hw as (d & i & _ & _ & Hi & _). eexists. by eapply elem_of_list_lookup_2. }
  destruct K as [name K]. by apply (ScProperties.C71_ids_of_a_name (r_sc cfg) mm hs name).
Qed.

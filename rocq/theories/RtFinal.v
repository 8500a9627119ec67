(** Proofs of the runtime properties. *)
From Verif Require Import Prelude Scale CommonTypes SigModel MsaModel CapModel TrModel StModel HModel ScModel MgModel FeeModel RtModel.
From Verif Require Import MsaSpec CapSpec TrSpec FeeSpec RtSpec RtProofs RtProj.
From Verif Require MsaProofs CapProofs TrProofs FeeFinal ScSpec ScFinal.

Section rt.
Variable cfg : RtCfg.

(** ** C15: who detaches keys *)
Lemma leaf_detach c o s s' k m : plain c -> rt_dispatch cfg c o s = Ok s' ->
  controls (rs_msa s) k m -> ~ controls (rs_msa s') k m -> c = RMsa (DeletePublicKey k) \/ c = RMsa RetireMsa.
Proof.
  intros Hp H Hc Hn. pose proof (leaf_inv _ _ _ _ _ Hp H) as [_ Hi].
  destruct c as [c|c|c|c|c|c|c|c| | | | | | |]; try done;
    try (destruct Hi as (x & _ & ->); by destruct Hn).
  - destruct Hi as (x & Hd & ->). apply MsaProofs.dispatch_key_effect in Hd. unfold controls in *. cbn [up_msa_ rs_msa] in Hn.
    destruct Hd as [E _ _ _|? _ E0 _ _ _ _ E _ _|? ? ? ? ? _ _ _ _ _ E0 _ _ _ E _ _|who m' key _ _ Hcall _ _ E _ _]; rewrite E in Hn.
    + done.
    + destruct Hn. apply lookup_insert_Some. right. split; congruence.
    + destruct Hn. apply lookup_insert_Some. right. split; congruence.
    + destruct (decide (key = k)) as [->|]; [|destruct Hn; by rewrite lookup_delete_ne].
      destruct Hcall as [->|[-> _]]; [by left|by right].
  - destruct Hn. destruct c; cbn [cap_dispatch] in Hi; try done; apply lift_ok in Hi as (x & _ & E); injection E as <-; done.
  - destruct Hn. destruct c as [|to sch|w l|w]; cbn [time_dispatch] in Hi; try done; apply lift_ok in Hi as (x & _ & E); [by injection E as <-| |by injection E as <-].
    destruct (match sc_total sch with Some a => _ | None => _ end) as [s1|] eqn:Em; [|done]. injection E as <-.
    destruct (sc_total sch) as [a|]; [|done]. by apply transfer_same in Em as [-> _].
  - destruct Hn. destruct c; cbn [bal_dispatch] in Hi; by apply transfer_same in Hi as [-> _].
  - destruct Hn. by rewrite Hi.
  - destruct Hn. by rewrite Hi.
Qed.

Definition detaching (k : N) (c : RtCall) : bool :=
  match c with RMsa (DeletePublicKey k') => k' =? k | RMsa RetireMsa => true | _ => false end.
Lemma detaching_in k l : existsb (detaching k) l = true -> RMsa (DeletePublicKey k) ∈ l \/ RMsa RetireMsa ∈ l.
Proof.
  intros H. apply existsb_exists in H as (c & Hin & H). apply elem_of_list_In in Hin.
  destruct c as [[]|c|c|c|c|c|c|c| | | | | | |]; try done; cbn [detaching] in H; [|by right]. apply N.eqb_eq in H as ->. by left.
Qed.

(** What stays the same unless some leaf does otherwise. *)
Lemma step_keep (P : RtState -> Prop) x s :
  (forall s n, P s -> P (up_nonce_ s n)) -> (forall s b, P s -> P (up_bal_ s b)) -> (forall s y, P s -> P (up_cap_ s y)) ->
  (forall c o s s', c ∈ calls_of x -> plain c -> rt_dispatch cfg c o s = Ok s' -> P s -> P s') ->
  (forall r s, x = SBlock r -> P s -> P (next_block s r)) ->
  (forall c s s', x = SGov c -> gov_apply cfg s c = Ok s' -> P s -> P s') ->
  P s -> P (rt_step cfg s x).
Proof.
  intros Hn Hb Hc Hl Hblk Hg. apply (step_rel cfg (fun s s' => P s -> P s')); eauto.
  intros s0 k w a x0 H. apply debit_same in H as [-> _]. eauto.
Qed.

Lemma detach_step x s k m : controls (rs_msa s) k m -> ~ controls (rs_msa (rt_step cfg s x)) k m ->
  exists t, x = STx t /\ (RMsa (DeletePublicKey k) ∈ leaves (tx_call t) \/ RMsa RetireMsa ∈ leaves (tx_call t))
  /\ (plain (tx_call t) -> controls (rs_msa s) (tx_who t) m).
Proof.
  intros Hc Hn.
  assert (Hleaf : RMsa (DeletePublicKey k) ∈ calls_of x \/ RMsa RetireMsa ∈ calls_of x).
  { destruct (existsb (detaching k) (calls_of x)) eqn:Hno; [by apply detaching_in|].
    destruct Hn. apply (step_keep (fun s => controls (rs_msa s) k m)); try done.
    - intros c o s0 s' Hin Hp H Hk. destruct (decide (ms_keys (rs_msa s') !! k = Some m)) as [|Hk']; [done|].
      apply leaf_detach with (k := k) (m := m) in H as HH; try done.
      assert (existsb (detaching k) (calls_of x) = true); [|congruence]. apply existsb_exists. exists c. split; [by apply elem_of_list_In|].
      destruct HH as [->| ->]; [|done]. cbn [detaching]. apply N.eqb_refl.
    - intros c s0 s' _ H Hk. destruct c; cbn [gov_apply] in H; apply lift_ok in H as (y & H & E); injection E as <-; try done.
      apply MsaProofs.dispatch_key_effect in H. unfold controls in *. cbn [up_msa_ rs_msa].
      destruct H as [E _ _ _|? [[? ?]|(? & ? & ? & ? & ? & _)]|? ? ? ? ? E|? ? ? E]; try done. by rewrite E. }
  destruct x as [r|t|p|c]; cbn [calls_of call_of] in Hleaf; try (by destruct Hleaf as [H|H]; inversion H).
  - exists t. split; [done|]. split; [done|]. intros Hp. revert Hn. cbn [rt_step]. unfold tx_apply.
    destruct (check_nonce _ _ _ _) as [s1|] eqn:E1; [|by destruct 1].
    assert (S1 : rs_msa s1 = rs_msa s).
    { unfold check_nonce in E1. destruct (_ <=? tx_nonce t); [|done]. destruct (tx_nonce t <=? _); [|done].
      destruct (_ || _); by injection E1 as <-. }
    destruct (withdraw_fee _ _ _ _ _ _) as [s2|] eqn:E2; [|by destruct 1].
    assert (S2 : rs_msa s2 = rs_msa s1).
    { eapply (fee_rel cfg (fun a b => rs_msa b = rs_msa a)); [done|done| |exact E2].
      intros s0 kk w a x0 H. by apply debit_same in H as [-> _]. }
    destruct (free_use _ _ _) eqn:E3; [|by destruct 1]. unfold run_call.
    destruct (rt_dispatch _ _ _ _) as [s3|] eqn:E4; [|rewrite S2, S1; by destruct 1]. intros Hn.
    assert (Hc2 : controls (rs_msa s2) k m) by (unfold controls; by rewrite S2, S1).
    destruct (leaf_detach _ _ _ _ _ _ Hp E4 Hc2 Hn) as [E|E]; rewrite E in *;
      apply leaf_inv in E4 as [_ (x & Hd & ->)]; try done; cbn [o_who signed] in Hd;
      apply MsaProofs.dispatch_key_effect in Hd; unfold controls in *; cbn [up_msa_ rs_msa] in Hn;
      cbn [free_use] in E3;
      match type of E3 with context [msa_validate ?a ?b ?c ?d] => destruct (msa_validate a b c d) as [[]|] eqn:Ev end; try done;
      destruct Hd as [E'|? [[? ?]|(? & ? & ? & ? & ? & _)]|? ? ? ? ? ? ?|who m' key Ho Hw Hcall _ _ Ek]; try done; try (by rewrite E' in Hn);
      try (match type of Ho with _ = _ => injection Ho as <- end).
    + destruct Hcall as [[= <-]|[? _]]; [|done].
      destruct (MsaProofs.validate_del _ _ _ _ k _ Ev Hw (or_introl eq_refl)) as [Hk _]. unfold controls in *. rewrite <- S1, <- S2. congruence.
    + destruct Hcall as [?|[_ ->]]; [done|].
      destruct (decide (tx_who t = k)) as [->|]; [by rewrite <- S1, <- S2|]. destruct Hn. rewrite Ek. by rewrite lookup_delete_ne.
  - revert Hn. cbn [rt_step]. unfold passkey_apply. destruct (negb _); [|by destruct 1]. destruct (pk_call p); cbn [passkey_filter]; try (by destruct 1).
    cbn [leaves] in Hleaf. destruct Hleaf as [H|H]; apply elem_of_list_singleton in H; done.
Qed.

(** Any account with an MSA can detach any key by a batch. *)
Lemma batch_detach who own k m s : controls (rs_msa s) who own -> controls (rs_msa s) k m -> exists s',
  rt_dispatch cfg (RUtility Batch [ROther PSystem; RMsa (DeletePublicKey k)]) (signed who) s = Ok s' /\ ms_keys (rs_msa s') = delete k (ms_keys (rs_msa s)).
Proof.
  unfold controls. intros Hw Hk. cbn. rewrite andb_false_r. cbn. unfold ensure_valid_msa_key, delete_key_for_msa. rewrite Hw, ?Hk. cbn. rewrite ?Hk. cbn. by eexists.
Qed.
(** ** C87: the batch filter *)
Lemma allowed_iff c : is_batch_call_allowed c = true <-> ~ blocked c.
Proof.
  destruct c as [c|c|c|c|c|c|c|c| | | | | | |]; cbn; try (split; [by intros _ []|done]); try (split; [done|by intros []]);
    destruct c; cbn; try (split; [by intros _ []|done]); try (split; [done|by intros []]).
Qed.
Lemma batch_some k l o s s' : rt_dispatch cfg (RUtility k l) o s = Ok s' -> exists c, c ∈ l /\ ~ blocked c.
Proof.
  intros H. apply dispatch_filter in H as [H _]. cbn [base_filter] in H. apply existsb_exists in H as (c & Hin & H).
  exists c. split; [by apply elem_of_list_In|by apply allowed_iff].
Qed.
Lemma batch_any mainnet k c : base_filter mainnet (RUtility k [ROther PSystem; c]) = true.
Proof. done. Qed.

Definition same_registry (s s' : RtState) : Prop :=
  ms_prov (rs_msa s') = ms_prov (rs_msa s) /\ ScModel.sc_count (rs_sc s') = ScModel.sc_count (rs_sc s)
  /\ sc_infos (rs_sc s') = sc_infos (rs_sc s) /\ sc_models (rs_sc s') = sc_models (rs_sc s) /\ sc_names (rs_sc s') = sc_names (rs_sc s).
Lemma same_reg_refl s : same_registry s s. Proof. done. Qed.
Lemma same_reg_trans a b c : same_registry a b -> same_registry b c -> same_registry a c.
Proof. intros (A1 & A2 & A3 & A4 & A5) (B1 & B2 & B3 & B4 & B5). unfold same_registry. by rewrite B1, B2, B3, B4, B5. Qed.
Lemma same_reg_parts s s' : rs_msa s' = rs_msa s -> rs_sc s' = rs_sc s -> same_registry s s'.
Proof. intros E1 E2. unfold same_registry. by rewrite E1, E2. Qed.

(** Leaves other than MSA and schema calls leave the MSAs and the schemas. *)
Lemma leaf_other c o s s' : plain c -> rt_dispatch cfg c o s = Ok s' ->
  match c with
  | RMsa c => rs_sc s' = rs_sc s
  | RSchemas c => rs_msa s' = rs_msa s
  | _ => rs_msa s' = rs_msa s /\ rs_sc s' = rs_sc s
  end.
Proof.
  intros Hp H. pose proof (leaf_inv _ _ _ _ _ Hp H) as [_ Hi]. destruct c as [c|c|c|c|c|c|c|c| | | | | | |]; try done;
    try (by destruct Hi as (x & _ & ->)).
  - destruct c; cbn [cap_dispatch] in Hi; try done; apply lift_ok in Hi as (x & _ & E); injection E as <-; done.
  - destruct c as [|to sch|w l|w]; cbn [time_dispatch] in Hi; try done; apply lift_ok in Hi as (x & _ & E); [by injection E as <-| |by injection E as <-].
    destruct (match sc_total sch with Some a => _ | None => _ end) as [s1|] eqn:Em; [|done]. injection E as <-.
    destruct (sc_total sch) as [a|]; [|done]. by apply transfer_same in Em as [-> _].
  - destruct c; cbn [bal_dispatch] in Hi; by apply transfer_same in Hi as [-> _].
  - by rewrite Hi.
  - by rewrite Hi.
Qed.

Lemma leaf_registry c o s s' : r_mainnet cfg = true -> plain c -> rt_dispatch cfg c o s = Ok s' -> same_registry s s'.
Proof.
  intros Hm Hp H. pose proof (leaf_other _ _ _ _ Hp H) as Ho. pose proof (leaf_inv _ _ _ _ _ Hp H) as [Hb Hi].
  destruct c as [c|c|c|c|c|c|c|c| | | | | | |]; try done; try (by destruct Ho; apply same_reg_parts).
  - destruct Hi as (x & Hd & ->). apply MsaProofs.dispatch_prov in Hd as [E|(m & n & _ & _ & _ & _ & _ & _ & [[? _]|(who & _ & _ & ->)])]; [|done|].
    + unfold same_registry. by cbn.
    + cbn [base_filter is_create_call] in Hb. by rewrite Hm in Hb.
  - destruct Hi as (x & Hd & ->). cbn [base_filter] in Hb. rewrite Hm in Hb.
    set (sx := {| sx_origin := ScSigned (o_who o); sx_council_ok := r_council cfg s (o_who o); sx_call := c |}).
    change (sc_apply (r_sc cfg) (rs_sc s) sx = Ok x) in Hd.
    destruct (ScSpec.creates sx) as [((r, key), b)|] eqn:Ec.
    + rewrite (ScFinal.dispatch_create _ _ _ _ _ _ Ec) in Hd. destruct (args_ok _ _); [|done]. destruct b; [|done].
      unfold sx, ScSpec.creates in Ec. cbn [sx_call sx_origin sx_council_ok] in Ec. destruct c; cbn in Hb; try done.
    + apply ScFinal.dispatch_other in Hd as [(n & _ & E & _)|[(id & p & n & _ & [E|E] & _)|(who & c' & _ & ->)]]; try done.
Qed.
Lemma registry_step x s : r_mainnet cfg = true -> (forall c, x <> SGov c) -> same_registry s (rt_step cfg s x).
Proof.
  intros Hm Hx. apply (step_rel cfg same_registry); try done.
  - apply same_reg_trans.
  - intros s0 k w a y H. by apply debit_same in H as [-> _].
  - intros c o s0 s' _ Hp H. by eapply leaf_registry.
  - intros c s0 s' E. by apply Hx in E.
Qed.

(** ** C88: proxy types *)
Lemma superset_lemma a b c : is_superset a b = true -> c <> ROther (PProxy true) -> proxy_filter b c = true -> proxy_filter a c = true.
Proof.
  unfold is_superset. destruct (bool_decide_reflect (a = b)) as [->|]; [done|]. intros Hs Hc Hb.
  destruct a, b; try done.
  all: destruct c as [c|c|c|c|c|c|c|c| | | | | | |[]]; cbn in *; try done; repeat match goal with x : bool |- _ => destruct x | x : CapCall |- _ => destruct x | x : TimeCall |- _ => destruct x end; try done.
Qed.

(** ** C108: proxies and tokens *)
Lemma sub_multisig x l c : x ∈ l -> Forall c (concat (map subcalls l)) -> Forall c (subcalls x).
Proof.
  intros Hx F. apply Forall_forall. intros y Hy. eapply (proj1 (Forall_forall _ _) F). apply elem_of_list_In, in_concat.
  exists (subcalls x). split; apply elem_of_list_In; [|done]. apply elem_of_list_fmap. eauto.
Qed.
Lemma run_batch_same (P : RtState -> RtState -> Prop) k (f : RtCall -> RtState -> res RtErr RtState) l : (forall s, P s s) -> (forall a b c, P a b -> P b c -> P a c) ->
  (forall c, c ∈ l -> forall s s', f c s = Ok s' -> P s s') -> forall s s', run_batch k f l s = Ok s' -> P s s'.
Proof. intros H1 H2 H3. apply run_batch_rel; [done|done|]. apply Forall_forall. exact H3. Qed.

Lemma no_tokens t : t <> PAny -> forall c o s s', no_multisig c -> (forall y, o_filter o y = true -> proxy_filter t y = true) ->
  rt_dispatch cfg c o s = Ok s' -> rs_bal s' = rs_bal s.
Proof.
  intros Ht. induction c as [c Hp|k l IH|c IH|l IH|r f c IH|os c IH] using call_ind; intros o s s' Hn Ho H;
    pose proof (dispatch_filter _ _ _ _ _ H) as [_ Hf]; apply Ho in Hf.
  - pose proof (leaf_inv _ _ _ _ _ Hp H) as [_ Hi]. destruct c as [c|c|c|c|c|c|c|c| | | | | | |]; try done; try (by destruct Hi as (x & _ & ->)).
    + destruct c; cbn [cap_dispatch] in Hi; try done; apply lift_ok in Hi as (x & _ & E); injection E as <-; done.
    + destruct c as [|to sch|w l|w]; cbn [time_dispatch] in Hi; try done; apply lift_ok in Hi as (x & _ & E); [by injection E as <-| |by injection E as <-].
      by destruct t.
    + by destruct t.
    + by rewrite Hi.
    + by rewrite Hi.
  - cbn [rt_dispatch] in H. destruct (base_filter _ _ && _); [|done].
    eapply (run_batch_same (fun a b => rs_bal b = rs_bal a)); [done|congruence| |exact H].
    intros c Hc a b Hab. unfold no_multisig in Hn. cbn [subcalls] in Hn. inversion Hn as [|? ? _ Hn']; subst.
    eapply (proj1 (Forall_forall _ _) IH c Hc); [by eapply sub_multisig| |exact Hab].
    intros y Hy. destruct k; cbn [add_filter o_filter] in Hy; [by apply Ho|apply andb_true_iff in Hy as [Hy _]; by apply Ho|by apply Ho].
  - cbn [rt_dispatch] in H. destruct (base_filter _ _ && _); [|done]. unfold no_multisig in Hn. cbn [subcalls] in Hn. inversion Hn; subst. by eapply IH.
  - cbn [rt_dispatch] in H. destruct (base_filter _ _ && _); [|done]. destruct (_ <=? _); [|done].
    eapply (run_batch_same (fun a b => rs_bal b = rs_bal a)); [done|congruence| |exact H].
    intros c Hc a b Hab. unfold no_multisig in Hn. cbn [subcalls] in Hn. inversion Hn as [|? ? _ Hn']; subst.
    eapply (proj1 (Forall_forall _ _) IH c Hc); [by eapply sub_multisig| |exact Hab].
    intros y Hy. cbn [add_filter o_filter] in Hy. apply andb_true_iff in Hy as [Hy _]. by apply Ho.
  - by destruct t.
  - unfold no_multisig in Hn. cbn [subcalls] in Hn. by inversion Hn.
Qed.

Lemma proxied_filter t c : proxied t c = true -> proxy_filter t c = true.
Proof. unfold proxied. destruct c; try done. by destruct (is_superset _ _). Qed.
Lemma find_proxy_ok s real who force t : find_proxy s real who force = Some t ->
  (who, t) ∈ default [] (rs_proxies s !! real) /\ (forall f, force = Some f -> t = f).
Proof.
  unfold find_proxy. destruct (List.find _ _) as [[d t']|] eqn:E; [|done]. intros [= <-]. apply List.find_some in E as [Hin H].
  apply elem_of_list_In in Hin. apply andb_true_iff in H as [Hd Hf]. cbn in *. apply N.eqb_eq in Hd as ->. split; [done|].
  intros f ->. by apply bool_decide_eq_true in Hf.
Qed.
Lemma proxy_lemma real force c o s s' : rt_dispatch cfg (RProxy real force c) o s = Ok s' ->
  exists t, (o_who o, t) ∈ default [] (rs_proxies s !! real) /\ (forall f, force = Some f -> t = f)
  /\ (s' = s \/ proxy_filter t c = true /\ exists o', o_who o' = real /\ rt_dispatch cfg c o' s = Ok s')
  /\ (t <> PAny -> no_multisig c -> rs_bal s' = rs_bal s).
Proof.
  intros H. cbn [rt_dispatch] in H. destruct (base_filter _ _ && _); [|done]. destruct (find_proxy _ _ _ _) as [t|] eqn:E; [|done].
  apply find_proxy_ok in E as [E1 E2]. exists t. split; [done|]. split; [done|].
  destruct (rt_dispatch _ c _ _) as [s1|] eqn:Ed; [|injection H as <-; split; [by left|done]]. injection H as ->.
  pose proof (dispatch_filter _ _ _ _ _ Ed) as [_ Hf]. cbn [add_filter o_filter signed] in Hf.
  split; [right; split; [by apply proxied_filter|]; exists (add_filter (signed real) (proxied t)); done|]. intros Ht Hn. eapply no_tokens; [exact Ht|exact Hn| |exact Ed].
  intros y Hy. by apply proxied_filter.
Qed.

(** ** Transactions in parts *)
Lemma check_ok s who n p s1 : check_nonce s who n p = Ok s1 <->
  n = nonce s who /\ s1 = if p || exists_account s who then up_nonce_ s (<[who := wrap_add u32_max n 1]> (rs_nonce s)) else s.
Proof.
  unfold check_nonce. destruct (N.leb_spec (nonce s who) n); [|split; [done|intros [-> _]; lia]].
  destruct (N.leb_spec n (nonce s who)); [|split; [done|intros [-> _]; lia]].
  assert (n = nonce s who) by lia. destruct (_ || _); (split; [intros [= <-]; done|intros [_ ->]; done]).
Qed.

(** ** C85, C86: passkeys *)
Lemma debit_other s k w a s' b : token_debit cfg s k w a = Some s' -> b <> w -> balance s' b = balance s b.
Proof.
  unfold token_debit. intros H Hb. destruct (_ <? a); [done|]. destruct (_ <? RtModel.frozen _ _); [done|].
  destruct (_ <? r_ed cfg); [destruct (_ || _); [done|]|]; injection H as <-; unfold balance; cbn;
    [by rewrite lookup_delete_ne|by rewrite lookup_insert_ne].
Qed.
Lemma credit_ge s to a s' b : token_credit cfg s to a = Some s' -> balance s b <= balance s' b.
Proof.
  unfold token_credit. intros H. destruct (_ <? r_ed cfg); [done|]. destruct (_ <? _); [done|]. injection H as <-. unfold balance at 2; cbn.
  destruct (decide (b = to)) as [->|]; [rewrite lookup_insert; cbn; lia|by rewrite lookup_insert_ne].
Qed.
Lemma transfer_other s k w to a s' b : token_transfer cfg s k w to a = Ok s' -> b <> w -> balance s b <= balance s' b.
Proof.
  unfold token_transfer. intros H Hb. destruct (_ =? _); [destruct (token_debit cfg s k w a), (token_credit cfg s to a); try done; by injection H as <-|].
  destruct (token_debit _ _ _ _ _) as [s1|] eqn:E1; [|done]. destruct (token_credit _ _ _ _) as [s2|] eqn:E2; [|done]. injection H as <-.
  rewrite <- (debit_other _ _ _ _ _ _ E1 Hb). by eapply credit_ge.
Qed.
Lemma passkey_lemma s p s' r : passkey_apply cfg s p = Ok (s', r) ->
  r_mainnet cfg = false /\ (exists c, pk_call p = RBalances c) /\ pk_nonce p = nonce s (pk_account p)
  /\ r_verify cfg (pk_proof p) (pk_account p) (wrap_binary_data (pk_public_key p)) = true
  /\ rest s' = rest s /\ (forall a, a <> pk_account p -> balance s a <= balance s' a).
Proof.
  unfold passkey_apply. intros H. destruct (r_mainnet cfg) eqn:Em; [done|]. cbn [negb] in H. destruct (passkey_filter (pk_call p)) eqn:Ef; [|done].
  destruct (r_verify _ _ _ _); [|done]. destruct (check_nonce _ _ _ _) as [s1|] eqn:E1; [|done].
  destruct (withdraw_token_fee _ _ _ _ _ _) as [s2|] eqn:E2; [|done]. injection H as H. apply check_ok in E1 as [En E1].
  split; [done|]. destruct (pk_call p) as [c|c|c|c|c|c|c|c| | | | | | |] eqn:Ec; try done. split; [by exists c|]. split; [done|]. split; [done|].
  assert (H1 : rest s1 = rest s /\ forall a, balance s1 a = balance s a) by (rewrite E1; by destruct (_ || _)).
  assert (H2 : rest s2 = rest s1 /\ forall a, a <> pk_account p -> balance s2 a = balance s1 a).
  { unfold withdraw_token_fee in E2. destruct (_ =? 0); [by injection E2 as <-|]. destruct (token_debit _ _ _ _ _) as [x|] eqn:Ed; [|done].
    injection E2 as <-. split; [by apply debit_same in Ed as [-> _]|]. intros a Ha. by eapply debit_other. }
  destruct H1 as [R1 B1], H2 as [R2 B2].
  unfold run_call in H. destruct (rt_dispatch _ _ _ _) as [s3|] eqn:Ed.
  - injection H as <- _. apply leaf_inv in Ed as [_ Ed]; [|done]. cbn [o_who signed] in Ed. split.
    + rewrite (bal_dispatch_same _ _ _ _ _ Ed). congruence.
    + intros a Ha. rewrite <- B1, <- (B2 a Ha). destruct c; cbn [bal_dispatch] in Ed; by eapply transfer_other.
  - injection H as <- _. split; [congruence|]. intros a Ha. by rewrite <- B1, <- (B2 a Ha).
Qed.
Lemma passkey_ignores s p sg : passkey_apply cfg s
  {| pk_public_key := pk_public_key p; pk_signature := sg; pk_account := pk_account p; pk_nonce := pk_nonce p; pk_proof := pk_proof p; pk_call := pk_call p |}
  = passkey_apply cfg s p.
Proof. done. Qed.
End rt.

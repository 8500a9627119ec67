(** Proofs about the transaction pool. *)
From Coq Require Import String Ascii.
From Verif Require Import Prelude Scale ScaleDec Utf8 Utf8Proofs MsaModel CapModel HModel FeeModel RtModel PoolModel RtSpec RtProofs RtProj RtFinal RtFinal2 PoolSpec.

(** ** Tags *)
Lemma nonce_tag_length a n : length (nonce_tag a n) = 36%nat.
Proof. unfold nonce_tag, enc_account, enc_u32. by rewrite app_length, !le_bytes_length. Qed.
Lemma nonce_tag_inj a n b m : a < 2 ^ 256 -> b < 2 ^ 256 -> n <= u32_max -> m <= u32_max ->
  nonce_tag a n = nonce_tag b m -> a = b /\ n = m.
Proof.
  intros Ha Hb Hn Hm H. unfold nonce_tag, enc_account, enc_u32 in H.
  apply le_bytes_app_inj in H as [-> H]; [|change (256 ^ N.of_nat 32) with (2 ^ 256); done|change (256 ^ N.of_nat 32) with (2 ^ 256); done].
  split; [done|]. apply le_bytes_inj in H; [done| |]; change (256 ^ N.of_nat 4) with (u32_max + 1); lia.
Qed.
Definition kind_text (k : FreeKind) : string :=
  match k with
  | FRevokeByDelegator => "DelegatorDelegationRevocation"
  | FRevokeByProvider => "ProviderDelegationRevocation"
  | FDeleteKey => "KeyRevocation"
  | FRetireMsa => "MSARetirement"
  end.
Lemma prefix_not_nonce k a b n : prefix_tag (kind_text k) a <> nonce_tag b n.
Proof.
  intros H. apply (f_equal (@length N)) in H. rewrite nonce_tag_length in H. unfold prefix_tag in H.
  rewrite app_length in H. unfold enc_account in H. rewrite le_bytes_length in H.
  destruct k; vm_compute in H; discriminate.
Qed.
Lemma prefix_inj k a j b : a < 2 ^ 256 -> b < 2 ^ 256 -> prefix_tag (kind_text k) a = prefix_tag (kind_text j) b -> k = j /\ a = b.
Proof.
  intros Ha Hb H. assert (k = j) as ->.
  { unfold prefix_tag in H. destruct k, j; try done; exfalso; apply (f_equal (take 3)) in H;
      cbn [enc_bytes text kind_text] in H; vm_compute in H; discriminate. }
  split; [done|]. unfold prefix_tag in H. apply app_inv_head in H.
  eapply (le_bytes_inj 32); [..|exact H]; change (256 ^ N.of_nat 32) with (2 ^ 256); done.
Qed.

Lemma sorted_app (l k : list N) : (forall x y, x ∈ l -> y ∈ k -> x < y) -> StronglySorted N.lt l -> StronglySorted N.lt k -> StronglySorted N.lt (l ++ k).
Proof.
  intros H Hl Hk. induction Hl as [|x l Hl IH Hf]; cbn; [done|]. constructor.
  - apply IH. intros y z Hy Hz. apply H; [by right|done].
  - apply Forall_app. split; [done|]. apply Forall_forall. intros y Hy. apply H; [by left|done].
Qed.

(** ** Validation *)
Section val.
Context (cfg : RtCfg) (prio : RtCall -> N -> N -> N -> N).

Lemma free_tags_spec a c : free_tags a c = match free_kind (PSigned {| tx_who := a; tx_nonce := 0; tx_call := RMsa c; tx_len := 0; tx_tip := 0 |}) with Some k => [prefix_tag (kind_text k) a] | None => [] end.
Proof. by destruct c. Qed.
Lemma free_valid st a c v : validate_free st a c = Ok v ->
  free_use st a c = Ok tt /\ v_requires v = [] /\ forall t, tx_call t = c -> tx_who t = a ->
  v_provides v = match free_kind (PSigned t) with Some k => [prefix_tag (kind_text k) a] | None => [] end.
Proof.
  unfold validate_free, free_use. intros H. destruct c; try (injection H as <-; split; [done|]; split; [done|]; intros tx Ec _; cbn [free_kind]; by rewrite Ec).
  - destruct (msa_validate _ _ _ _); [|done]. injection H as <-. split; [done|]. split; [done|]. intros t Ec _. cbn [v_provides free_kind]. rewrite Ec. by destruct c.
  - destruct (extension_ok _ _ _ _); [|done]. injection H as <-. split; [done|]. split; [done|]. intros t Ec _. cbn [v_provides free_kind v_default]. by rewrite Ec.
Qed.
Lemma free_use_valid st a c : free_use st a c = Ok tt -> is_ok (validate_free st a c) = true.
Proof.
  unfold validate_free, free_use. intros H. destruct c; try done.
  - by destruct (msa_validate _ _ _ _).
  - by destruct (extension_ok _ _ _ _).
Qed.

(** What the pool says of a valid transaction *)
Lemma valid_tags st x v : pool_validate cfg prio st x = Ok v ->
  nonce st (sender x) <= nonce_of x
  /\ v_requires v = (if nonce st (sender x) <? nonce_of x then [nonce_tag (sender x) (nonce_of x - 1)] else [])
  /\ v_provides v = nonce_tag (sender x) (nonce_of x) :: match free_kind x with Some k => [prefix_tag (kind_text k) (sender x)] | None => [] end.
Proof.
  destruct x as [t|p]; cbn [pool_validate sender nonce_of]; intros H.
  - unfold tx_validate, validate_nonce in H. destruct (N.leb_spec (nonce st (tx_who t)) (tx_nonce t)); [|done].
    destruct (validate_payment _ _ _ _ _ _ _) as [[s1 v2]|] eqn:Ep; [|done].
    destruct (validate_free _ _ _) as [v3|] eqn:Ef; [|done]. injection H as <-.
    unfold validate_payment in Ep. destruct (withdraw_fee _ _ _ _ _ _) as [s2|]; [|done]. injection Ep as <- <-.
    apply free_valid in Ef as (_ & R & P). specialize (P t eq_refl eq_refl).
    split; [done|]. cbn [combine_with v_requires v_provides v_default app]. rewrite R, P, !app_nil_r. done.
  - unfold passkey_validate, validate_nonce in H. destruct (negb _); [|done]. destruct (passkey_filter _); [|done]. destruct (r_verify _ _ _ _); [|done].
    destruct (N.leb_spec (nonce st (pk_account p)) (pk_nonce p)); [|done]. destruct (withdraw_token_fee _ _ _ _ _ _); [|done].
    injection H as <-. split; [done|]. cbn [combine_with v_requires v_provides v_default app free_kind]. rewrite !app_nil_r. done.
Qed.

(** Payment does not look at nonces. *)
Lemma debit_nonce s x k w n : token_debit cfg (up_nonce_ s x) k w n = match token_debit cfg s k w n with
  | Some s' => Some (if balance s w - n <? r_ed cfg then up_nonce_ s' (delete w x) else up_nonce_ s' x) | None => None end.
Proof.
  unfold token_debit. change (balance (up_nonce_ s x) w) with (balance s w). change (RtModel.frozen (up_nonce_ s x) w) with (RtModel.frozen s w).
  destruct (_ <? n); [done|]. destruct (_ <? RtModel.frozen s w); [done|]. destruct (_ <? r_ed cfg); [|done]. by destruct (_ || _).
Qed.
Lemma token_fee_nonce s x w c n tip : withdraw_token_fee cfg (up_nonce_ s x) w c n tip =
  match withdraw_token_fee cfg s w c n tip with Ok s' => Ok (up_nonce_ s' x) | Err e => Err e end.
Proof.
  unfold withdraw_token_fee. destruct (_ =? 0); [done|]. rewrite debit_nonce. destruct (token_debit _ _ _ _ _) as [s'|] eqn:E; [|done].
  unfold token_debit in E. destruct (_ <? _); [done|]. destruct (_ <? RtModel.frozen s w); [done|]. destruct (_ <? r_ed cfg); [done|done].
Qed.
Lemma fee_nonce s x w c n tip : withdraw_fee cfg (up_nonce_ s x) w c n tip =
  match withdraw_fee cfg s w c n tip with Ok s' => Ok (up_nonce_ s' x) | Err e => Err e end.
Proof.
  assert (Hc : forall l, withdraw_capacity_fee cfg (up_nonce_ s x) w l n = match withdraw_capacity_fee cfg s w l n with Ok s' => Ok (up_nonce_ s' x) | Err e => Err e end).
  { intros l. unfold withdraw_capacity_fee. destruct (capacity_charge _ _); [|done]. change (balance (up_nonce_ s x) w) with (balance s w).
    destruct (_ <=? _); [|done]. change (rs_msa (up_nonce_ s x)) with (rs_msa s). destruct (ms_keys _ !! _); [|done].
    change (rs_cap (up_nonce_ s x)) with (rs_cap s). by destruct (cap_spend _ _ _). }
  destruct c; cbn [withdraw_fee]; first [apply token_fee_nonce|apply Hc].
Qed.
Lemma free_nonce s x w c : free_use (up_nonce_ s x) w c = free_use s w c.
Proof. by destruct c. Qed.
Lemma check_now s w p : exists s1, check_nonce s w (nonce s w) p = Ok s1 /\ (s1 = s \/ exists x, s1 = up_nonce_ s x).
Proof.
  destruct (check_nonce s w (nonce s w) p) as [s1|] eqn:E.
  - exists s1. split; [done|]. apply check_ok in E as [_ ->]. destruct (_ || _); eauto.
  - unfold check_nonce in E. rewrite N.leb_refl in E. by destruct (_ || _).
Qed.

Lemma apply_now st x : (exists r, pool_apply cfg st (with_nonce (nonce st (sender x)) x) = Ok r) <->
  match x with
  | PSigned t => exists s, withdraw_fee cfg st (tx_who t) (tx_call t) (tx_len t) (tx_tip t) = Ok s /\ free_use s (tx_who t) (tx_call t) = Ok tt
  | PPasskey p => r_mainnet cfg = false /\ passkey_filter (pk_call p) = true /\ r_verify cfg (pk_proof p) (pk_account p) (wrap_binary_data (pk_public_key p)) = true
                  /\ exists s, withdraw_token_fee cfg st (pk_account p) (pk_call p) 32 0 = Ok s
  end.
Proof.
  destruct x as [t|p]; cbn [pool_apply with_nonce sender].
  - unfold tx_apply. cbn [tx_who tx_nonce tx_call tx_len tx_tip].
    destruct (check_now st (tx_who t) (negb (is_pays_no_call (tx_call t)))) as (s1 & -> & Hs).
    assert (E : withdraw_fee cfg s1 (tx_who t) (tx_call t) (tx_len t) (tx_tip t) = withdraw_fee cfg st (tx_who t) (tx_call t) (tx_len t) (tx_tip t)
      \/ exists x, withdraw_fee cfg s1 (tx_who t) (tx_call t) (tx_len t) (tx_tip t) = match withdraw_fee cfg st (tx_who t) (tx_call t) (tx_len t) (tx_tip t) with Ok s' => Ok (up_nonce_ s' x) | Err e => Err e end).
    { destruct Hs as [->|[x ->]]; [by left|right]. exists x. apply fee_nonce. }
    destruct (withdraw_fee cfg st _ _ _ _) as [s2|e] eqn:E2.
    + assert (F : forall s', withdraw_fee cfg s1 (tx_who t) (tx_call t) (tx_len t) (tx_tip t) = Ok s' -> free_use s' (tx_who t) (tx_call t) = free_use s2 (tx_who t) (tx_call t)).
      { intros s' Hs'. rewrite Hs' in E. destruct E as [E|[x E]]; injection E as ->; [done|apply free_nonce]. }
      destruct (withdraw_fee cfg s1 _ _ _ _) as [s3|e3]; [|by destruct E as [E|[x E]]]. specialize (F s3 eq_refl). rewrite F.
      split; [intros [r H]|intros (s & [= <-] & ->); eauto]. exists s2. split; [done|]. by destruct (free_use s2 _ _) as [[]|].
    + destruct E as [-> |[x ->]]; (split; [intros [r H]; done|intros (s & H & _); done]).
  - unfold passkey_apply. cbn [pk_account pk_nonce pk_call pk_proof pk_public_key].
    destruct (r_mainnet cfg); cbn [negb]; [split; [intros [r H]; done|intros (H & _); done]|].
    destruct (passkey_filter _); [|split; [intros [r H]; done|intros (_ & H & _); done]].
    destruct (r_verify _ _ _ _); [|split; [intros [r H]; done|intros (_ & _ & H & _); done]].
    destruct (check_now st (pk_account p) (negb (is_pays_no_call (pk_call p)))) as (s1 & -> & Hs).
    destruct (withdraw_token_fee cfg st _ _ _ _) as [s2|e] eqn:E2.
    + split; [intros _; do 3 (split; [done|]); eauto|intros _]. destruct Hs as [->|[x ->]]; [rewrite E2; eauto|rewrite token_fee_nonce, E2; eauto].
    + split; [intros [r H]|intros (_ & _ & _ & s & H); done]. destruct Hs as [->|[x ->]]; [by rewrite E2 in H|by rewrite token_fee_nonce, E2 in H].
Qed.

Lemma pool_agrees_lemma st x :
  (exists v, pool_validate cfg prio st x = Ok v) <->
  nonce st (sender x) <= nonce_of x /\ exists r, pool_apply cfg st (with_nonce (nonce st (sender x)) x) = Ok r.
Proof.
  rewrite apply_now. destruct x as [t|p]; cbn [pool_validate sender nonce_of].
  - unfold tx_validate, validate_nonce, validate_payment. destruct (N.leb_spec (nonce st (tx_who t)) (tx_nonce t)) as [Hl|Hl];
      [|split; [intros [v H]; done|intros [H _]; lia]].
    destruct (withdraw_fee _ _ _ _ _ _) as [s|e]; [|split; [intros [v H]; done|intros (_ & s & H & _); done]].
    split.
    + intros [v H]. split; [done|]. exists s. split; [done|]. destruct (validate_free s _ _) as [v3|] eqn:Ef; [|done]. by apply free_valid in Ef as [? _].
    + intros (_ & s' & [= <-] & Hf). apply free_use_valid in Hf. destruct (validate_free s _ _); [eauto|done].
  - unfold passkey_validate, validate_nonce. destruct (r_mainnet cfg); cbn [negb]; [split; [intros [v H]; done|intros (_ & H & _); done]|].
    destruct (passkey_filter _); [|split; [intros [v H]; done|intros (_ & _ & H & _); done]].
    destruct (r_verify _ _ _ _); [|split; [intros [v H]; done|intros (_ & _ & _ & H & _); done]].
    destruct (N.leb_spec (nonce st (pk_account p)) (pk_nonce p)) as [Hl|Hl]; [|split; [intros [v H]; done|intros [H _]; lia]].
    destruct (withdraw_token_fee _ _ _ _ _ _) as [s|e]; [|split; [intros [v H]; done|intros (_ & _ & _ & _ & s & H); done]].
    split; [intros _; split; [done|]; do 3 (split; [done|]); eauto|intros _; eauto].
Qed.

Lemma apply_nonce st x r : pool_apply cfg st x = Ok r -> nonce_of x = nonce st (sender x).
Proof.
  destruct x as [t|p]; cbn [pool_apply nonce_of sender]; intros H.
  - unfold tx_apply in H. destruct (check_nonce _ _ _ _) eqn:E; [|done]. by apply check_ok in E as [-> _].
  - unfold passkey_apply in H. destruct (negb _); [|done]. destruct (passkey_filter _); [|done]. destruct (r_verify _ _ _ _); [|done].
    destruct (check_nonce _ _ _ _) eqn:E; [|done]. by apply check_ok in E as [-> _].
Qed.
Lemma with_nonce_id x : with_nonce (nonce_of x) x = x.
Proof. by destruct x as [[]|[]]. Qed.
Lemma ready_iff_lemma st x :
  (exists r, pool_apply cfg st x = Ok r) <-> exists v, pool_validate cfg prio st x = Ok v /\ v_requires v = [].
Proof.
  split.
  - intros [r H]. pose proof (apply_nonce _ _ _ H) as En. destruct (proj2 (pool_agrees_lemma st x)) as [v Hv].
    + split; [lia|]. rewrite <- En, with_nonce_id. eauto.
    + exists v. split; [done|]. apply valid_tags in Hv as (_ & -> & _). by rewrite En, N.ltb_irrefl.
  - intros (v & Hv & Hr). pose proof Hv as Ht. apply valid_tags in Ht as (Hl & R & _). rewrite Hr in R.
    destruct (N.ltb_spec (nonce st (sender x)) (nonce_of x)); [done|].
    destruct (proj1 (pool_agrees_lemma st x) (ex_intro _ v Hv)) as [_ Ha].
    replace (nonce st (sender x)) with (nonce_of x) in Ha by lia. by rewrite with_nonce_id in Ha.
Qed.

(** ** Conflicts *)
Lemma conflict_lemma s1 s2 x y v w : fits x -> fits y -> pool_validate cfg prio s1 x = Ok v -> pool_validate cfg prio s2 y = Ok w ->
  (exists tag, tag ∈ v_provides v /\ tag ∈ v_provides w) <->
  sender x = sender y /\ (nonce_of x = nonce_of y \/ exists k, free_kind x = Some k /\ free_kind y = Some k).
Proof.
  intros [Ax Nx] [Ay Ny] Hv Hw. apply valid_tags in Hv as (_ & _ & ->). apply valid_tags in Hw as (_ & _ & ->).
  assert (Hk : forall x' tag, tag ∈ match free_kind x' with Some k => [prefix_tag (kind_text k) (sender x')] | None => [] end ->
    exists k, free_kind x' = Some k /\ tag = prefix_tag (kind_text k) (sender x')).
  { intros x' tag Hin. destruct (free_kind x') as [k|]; [|by apply elem_of_nil in Hin]. apply elem_of_list_singleton in Hin. eauto. }
  split.
  - intros (tag & H1 & H2). apply elem_of_cons in H1 as [->|H1]; apply elem_of_cons in H2 as [H2|H2].
    + apply nonce_tag_inj in H2 as [-> ->]; auto.
    + apply Hk in H2 as (k & _ & H2). by apply eq_sym, prefix_not_nonce in H2.
    + subst tag. apply Hk in H1 as (k & _ & H1). by apply eq_sym, prefix_not_nonce in H1.
    + apply Hk in H1 as (k & K1 & ->). apply Hk in H2 as (j & K2 & H2). apply prefix_inj in H2 as [<- ->]; [|done|done]. eauto.
  - intros [E [N|(k & K1 & K2)]].
    + exists (nonce_tag (sender x) (nonce_of x)). rewrite E, N. split; by left.
    + exists (prefix_tag (kind_text k) (sender x)). rewrite K1, K2, E. split; right; by left.
Qed.

(** ** What follows a transaction *)
Lemma successor_lemma s t s' r : nonce s (tx_who t) < u32_max -> is_pays_no_call (tx_call t) = false \/ 0 < balance s (tx_who t) ->
  tx_apply cfg s t = Ok (s', r) ->
  nonce s' (tx_who t) = tx_nonce t + 1 \/ nonce s' (tx_who t) = 0 /\ exists c, c ∈ leaves (tx_call t) /\ moves_tokens c.
Proof.
  intros Hb Hp H. unfold tx_apply in H. destruct (check_nonce _ _ _ _) as [s1|] eqn:E1; [|done].
  destruct (withdraw_fee _ _ _ _ _ _) as [s2|] eqn:E2; [|done]. destruct (free_use _ _ _); [|done]. injection H as H.
  apply (nonce_fee _ (tx_who t)) in E2. apply (nonce_run _ (tx_who t)) in H as [F M]. unfold falls in F. rewrite E2 in *.
  apply check_ok in E1 as [En ->]. assert (Hc : negb (is_pays_no_call (tx_call t)) || exists_account s (tx_who t) = true).
  { destruct Hp as [->|Hp]; [done|]. unfold exists_account. apply N.ltb_lt in Hp. rewrite Hp. by rewrite orb_true_r. }
  rewrite Hc in *. assert (E : nonce (up_nonce_ s (<[tx_who t := wrap_add u32_max (tx_nonce t) 1]> (rs_nonce s))) (tx_who t) = tx_nonce t + 1).
  { rewrite nonce_set. unfold wrap_add. rewrite N.mod_small; lia. }
  rewrite E in *. destruct M as [M|M]; [by left|]. destruct F as [F|F]; [by left|by right].
Qed.

Lemma stuck_lemma s t s' r t2 : exists_account s (tx_who t) = false -> is_pays_no_call (tx_call t) = true ->
  tx_apply cfg s t = Ok (s', r) -> tx_who t2 = tx_who t -> tx_nonce t2 = tx_nonce t + 1 ->
  nonce s' (tx_who t) = tx_nonce t /\ tx_apply cfg s' t2 = Err IFuture.
Proof.
  intros He Hp H Hw Hn. assert (E : nonce s' (tx_who t) = tx_nonce t).
  { unfold tx_apply in H. destruct (check_nonce _ _ _ _) as [s1|] eqn:E1; [|done].
    destruct (withdraw_fee _ _ _ _ _ _) as [s2|] eqn:E2; [|done]. destruct (free_use _ _ _); [|done]. injection H as H.
    apply (nonce_fee _ (tx_who t)) in E2. apply (nonce_run _ (tx_who t)) in H as [_ M]. apply check_ok in E1 as [En ->].
    rewrite Hp, He in *. cbn [negb orb] in *. rewrite En, <- E2. destruct M as [M|(c & Hc & Hm)]; [done|]. exfalso.
    destruct (tx_call t) as [[]| | [] | | | | | | | | | | | |]; try done; apply elem_of_list_singleton in Hc as ->; done. }
  split; [done|]. unfold tx_apply, check_nonce. rewrite Hw, Hn, E. destruct (N.leb_spec (tx_nonce t) (tx_nonce t + 1)); [|lia].
  destruct (N.leb_spec (tx_nonce t + 1) (tx_nonce t)); [lia|done].
Qed.

(** ** Tips *)
Lemma tip_lemma s t tip : (exists x, tx_call t = RPay x) \/ (exists l, tx_call t = RPayBatch l) ->
  tx_apply cfg s (with_tip tip t) = tx_apply cfg s t /\ tx_validate cfg prio s (with_tip tip t) = tx_validate cfg prio s t.
Proof. unfold tx_apply, tx_validate, validate_payment. cbn [with_tip tx_who tx_nonce tx_call tx_len tx_tip]. intros [[x E]|[l E]]; rewrite E; done. Qed.

(** ** Missing nonces *)
Section missing.
Context (st : RtState) (p : Pool) (a : N).
Hypothesis (Hp : pool_rules cfg prio st p) (Ha : a < 2 ^ 256).
Let start := nonce st a.
Let has (l : list Entry) (n : N) : Prop := exists e, e ∈ l /\ sender (e_tx e) = a /\ nonce_of (e_tx e) = n.
Let tags (l : list Entry) := map (fun e => v_provides (e_valid e)) l.

Lemma entry_tags e : e ∈ p_ready p ++ p_future p -> nonce st (sender (e_tx e)) <= nonce_of (e_tx e)
  /\ v_requires (e_valid e) = (if nonce st (sender (e_tx e)) <? nonce_of (e_tx e) then [nonce_tag (sender (e_tx e)) (nonce_of (e_tx e) - 1)] else [])
  /\ v_provides (e_valid e) = nonce_tag (sender (e_tx e)) (nonce_of (e_tx e)) :: match free_kind (e_tx e) with Some k => [prefix_tag (kind_text k) (sender (e_tx e))] | None => [] end.
Proof. intros H. eapply valid_tags, (pr_validated _ _ _ _ Hp), H. Qed.
Lemma provides_nonce e b n : e ∈ p_ready p ++ p_future p -> b < 2 ^ 256 -> n <= u32_max -> nonce_tag b n ∈ v_provides (e_valid e) -> sender (e_tx e) = b /\ nonce_of (e_tx e) = n.
Proof.
  intros H Hb Hn Ht. destruct (entry_tags e H) as (_ & _ & P). rewrite P in Ht. destruct (pr_fits _ _ _ _ Hp e H) as [F1 F2].
  apply elem_of_cons in Ht as [Ht|Ht].
  - apply nonce_tag_inj in Ht as [-> ->]; auto.
  - destruct (free_kind _) as [k|]; [|by apply elem_of_nil in Ht]. apply elem_of_list_singleton in Ht. by apply eq_sym, prefix_not_nonce in Ht.
Qed.

Lemma wrap_small c : c < u32_max -> wrap_add u32_max c 1 = c + 1.
Proof. intros. unfold wrap_add. apply N.mod_small. lia. Qed.

(** The ready transactions of the account have the nonces from [start] to [c]. *)
Lemma walk_lemma : exists c, start <= c <= N.max start (u32_max + 1)
  /\ (c <= u32_max -> walk_ready a start (tags (p_ready p)) = c)
  /\ forall n, has (p_ready p) n <-> start <= n < c.
Proof.
  assert (G : forall post pre c, p_ready p = pre ++ post -> start <= c <= N.max start (u32_max + 1) -> (forall n, has pre n <-> start <= n < c) ->
    exists c', start <= c' <= N.max start (u32_max + 1) /\ (c' <= u32_max -> c <= u32_max /\ walk_ready a c (tags post) = c') /\ forall n, has (p_ready p) n <-> start <= n < c').
  { induction post as [|e post IH]; intros pre c E Hc Hpre.
    - exists c. split; [done|]. split; [done|]. rewrite E, app_nil_r. done.
    - assert (Hin : e ∈ p_ready p ++ p_future p) by (rewrite E; set_solver).
      destruct (entry_tags e Hin) as (L & R & P). destruct (pr_fits _ _ _ _ Hp e Hin) as [F1 F2].
      assert (E2 : p_ready p = (pre ++ [e]) ++ post) by (by rewrite E, <- app_assoc).
      destruct (decide (sender (e_tx e) = a)) as [Es|Es].
      + assert (En : nonce_of (e_tx e) = c).
        { rewrite Es in *. fold start in L, R. destruct (N.ltb_spec (nonce_of (e_tx e)) c) as [Hlt|Hge].
          - exfalso. destruct (proj2 (Hpre (nonce_of (e_tx e)))) as (e' & Hin' & Es' & En'); [lia|].
            apply elem_of_list_lookup in Hin' as [i Hi]. assert (Hl : p_ready p !! i = Some e') by (rewrite E; by apply lookup_app_l_Some).
            assert (Hr : p_ready p !! length pre = Some e) by (rewrite E; apply list_lookup_middle; done).
            assert (i = length pre). { eapply (pr_unique _ _ _ _ Hp i (length pre) e' e (nonce_tag a (nonce_of (e_tx e)))); [done|done| |rewrite P; by left].
              destruct (entry_tags e') as (_ & _ & P'); [rewrite E; apply elem_of_list_lookup_2 in Hi; set_solver|]. rewrite P', Es', En'. by left. }
            subst i. apply lookup_lt_Some in Hi. lia.
          - destruct (N.ltb_spec start (nonce_of (e_tx e))) as [Hlt|]; [|lia].
            destruct (pr_order _ _ _ _ Hp pre e post (nonce_tag a (nonce_of (e_tx e) - 1)) E) as (e' & Hin' & Ht); [rewrite R; by left|].
            apply provides_nonce in Ht as [Es' En']; [|rewrite E; set_solver|done|lia].
            assert (start <= nonce_of (e_tx e) - 1 < c); [|lia]. apply Hpre. exists e'. auto. }
        assert (Hpre2 : forall n, has (pre ++ [e]) n <-> start <= n < c + 1).
        { intros n. split.
          - intros (e' & Hin' & Es' & En'). apply elem_of_app in Hin' as [Hin'|Hin'].
            + assert (start <= n < c); [|lia]. apply Hpre. exists e'. auto.
            + apply elem_of_list_singleton in Hin' as ->. lia.
          - intros Hn. destruct (N.eq_dec n c) as [->|].
            + exists e. split; [set_solver|done].
            + destruct (proj2 (Hpre n)) as (e' & Hin' & ?); [lia|]. exists e'. split; [set_solver|done]. }
        destruct (IH (pre ++ [e]) (c + 1) E2) as (c' & B & W & H); [lia|done|]. exists c'. split; [done|]. split; [|done].
        intros Hc'. destruct (W Hc') as [W1 W2]. split; [lia|]. cbn [tags map walk_ready]. rewrite P, Es, En. cbn [head].
        rewrite bool_decide_true by done. rewrite wrap_small by lia. done.
      + assert (Hpre2 : forall n, has (pre ++ [e]) n <-> start <= n < c).
        { intros n. rewrite <- Hpre. split; intros (e' & Hin' & Es' & En'); exists e'; (split; [|done]); [|set_solver].
          apply elem_of_app in Hin' as [Hin'|Hin']; [done|]. apply elem_of_list_singleton in Hin' as ->. done. }
        destruct (IH (pre ++ [e]) c E2 Hc Hpre2) as (c' & B & W & H). exists c'. split; [done|]. split; [|done].
        intros Hc'. destruct (W Hc') as [W1 W2]. split; [done|]. cbn [tags map walk_ready]. rewrite P. cbn [head].
        rewrite bool_decide_false; [done|]. intros Et. apply (inj Some) in Et. apply nonce_tag_inj in Et as [Et _]; done. }
  destruct (G (p_ready p) [] start eq_refl) as (c & B & W & H).
  - lia.
  - intros n. split; [intros (e & He & _); by apply elem_of_nil in He|lia].
  - exists c. split; [done|]. split; [|done]. intros Hc. by apply W.
Qed.

Lemma strip_app pre bs : strip pre (pre ++ bs) = Some bs.
Proof. induction pre; cbn; [done|]. rewrite N.eqb_refl. done. Qed.
Lemma strip_some pre bs r : strip pre bs = Some r -> bs = pre ++ r.
Proof.
  revert bs; induction pre as [|x pre IH]; intros bs; cbn; [by intros [= ->]|]. destruct bs as [|b bs]; [done|].
  destruct (N.eqb_spec x b) as [->|]; [|done]. intros H. by rewrite (IH _ H).
Qed.
Lemma future_nonce_spec e : e ∈ p_ready p ++ p_future p ->
  future_nonce a (v_provides (e_valid e)) = if decide (sender (e_tx e) = a) then Some (nonce_of (e_tx e)) else None.
Proof.
  intros H. destruct (entry_tags e H) as (_ & _ & P). destruct (pr_fits _ _ _ _ Hp e H) as [F1 F2]. rewrite P. cbn [future_nonce].
  destruct (decide _) as [->|Hn].
  - unfold nonce_tag. rewrite strip_app. unfold enc_u32. assert (El : length (le_bytes 4 (nonce_of (e_tx e))) = 4%nat) by apply le_bytes_length.
    unfold len. rewrite El. change (4 <=? N.of_nat 4) with true. cbn iota. f_equal.
    rewrite <- El at 1. rewrite firstn_all. apply le_val_bytes. change (256 ^ N.of_nat 4) with (u32_max + 1). lia.
  - destruct (strip _ _) as [r|] eqn:Es; [|done]. exfalso. apply strip_some in Es. unfold nonce_tag, enc_account in Es.
    apply le_bytes_app_inj in Es as [? _]; [done| |]; change (256 ^ N.of_nat 32) with (2 ^ 256); done.
Qed.

Lemma insert_perm x l : insert_sorted x l ≡ₚ x :: l.
Proof. induction l as [|y l IH]; cbn; [done|]. destruct (x <=? y); [done|]. rewrite IH. by constructor. Qed.
Lemma sort_perm l : sort_nonces l ≡ₚ l.
Proof. unfold sort_nonces. induction l as [|x l IH]; cbn; [done|]. rewrite insert_perm. by rewrite IH. Qed.
Lemma insert_sorted_ok x l : StronglySorted N.le l -> StronglySorted N.le (insert_sorted x l).
Proof.
  induction 1 as [|y l Hs IH Hf]; cbn; [repeat constructor|]. destruct (N.leb_spec x y).
  - constructor; [by constructor|]. constructor; [done|]. eapply Forall_impl; [exact Hf|]. cbn. lia.
  - constructor; [done|]. rewrite insert_perm. constructor; [lia|done].
Qed.
Lemma sort_ok l : StronglySorted N.le (sort_nonces l).
Proof. unfold sort_nonces. induction l; cbn; [constructor|by apply insert_sorted_ok]. Qed.

(** The inner loop *)
Lemma fill_spec room : forall c t out c' stop, (0 < room)%nat -> t <= u32_max -> fill room c t = (out, c', stop) ->
  StronglySorted N.lt out /\ (length out <= room)%nat /\ (forall x, x ∈ out -> c <= x < t)
  /\ (stop = true -> length out = room /\ forall x, c <= x < t -> x ∈ out \/ forall y, y ∈ out -> y < x)
  /\ (stop = false -> (length out < room)%nat /\ c' = N.max c t /\ forall x, c <= x < t -> x ∈ out).
Proof.
  induction room as [|r IH]; intros c t out c' stop Hr Ht H; [lia|]. cbn [fill] in H. destruct (N.ltb_spec c t) as [Hlt|Hge].
  - rewrite wrap_small in H by lia. destruct r as [|r].
    + injection H as <- <- <-. split; [repeat constructor|]. split; [cbn; lia|]. split; [intros x Hx; apply elem_of_list_singleton in Hx; lia|].
      split; [intros _; split; [done|]|done]. intros x Hx. destruct (N.eq_dec x c) as [->|]; [left; by left|right]. intros y Hy. apply elem_of_list_singleton in Hy. lia.
    + destruct (fill (S r) (c + 1) t) as [[o2 c2] s2] eqn:Ef. injection H as <- <- <-.
      destruct (IH _ _ _ _ _ ltac:(lia) Ht Ef) as (S1 & S2 & S3 & S4 & S5). split; [constructor; [done|]|].
      { apply Forall_forall. intros x Hx. apply S3 in Hx. lia. }
      split; [cbn; lia|]. split; [intros x Hx; apply elem_of_cons in Hx as [->|Hx]; [lia|apply S3 in Hx; lia]|]. split.
      * intros Hs. destruct (S4 Hs) as [L A]. split; [cbn; lia|]. intros x Hx. destruct (N.eq_dec x c) as [->|]; [left; by left|].
        destruct (A x) as [A'|A']; [lia|left; by right|right]. intros y Hy. apply elem_of_cons in Hy as [->|Hy]; [lia|auto].
      * intros Hs. destruct (S5 Hs) as (L & -> & A). split; [cbn; lia|]. split; [lia|]. intros x Hx. destruct (N.eq_dec x c) as [->|]; [by left|right; apply A; lia].
  - injection H as <- <- <-. split; [constructor|]. split; [cbn; lia|]. split; [intros x Hx; by apply elem_of_nil in Hx|]. split; [done|].
    intros _. split; [cbn; lia|]. split; [lia|]. intros x Hx. lia.
Qed.

(** What the outer loop lists for sorted nonces: only numbers between them. *)
Lemma fill_sound l : forall room c, (0 < room)%nat -> StronglySorted N.le l -> (forall f, f ∈ l -> f + len l <= u32_max) -> c + len l <= u32_max ->
  let out := fill_all room c l in
  StronglySorted N.lt out /\ (length out <= room)%nat /\ forall x, x ∈ out -> c <= x /\ x ∉ l /\ exists f, f ∈ l /\ x < f.
Proof.
  induction l as [|f l IH]; intros room c Hr Hs Hb Hc; cbn [fill_all].
  { split; [constructor|]. split; [cbn; lia|]. intros x Hx. by apply elem_of_nil in Hx. }
  inversion Hs as [|? ? Hs' Hf]; subst. rewrite len_cons in *. assert (Hff : f <= u32_max) by (specialize (Hb f ltac:(by left)); lia).
  assert (Hnl : forall x, x < f -> x ∉ f :: l). { intros x Hx Hin. apply elem_of_cons in Hin as [->|Hin]; [lia|]. rewrite Forall_forall in Hf. specialize (Hf x Hin). lia. }
  destruct (fill room c f) as [[o c'] s] eqn:E. destruct (fill_spec _ _ _ _ _ _ Hr Hff E) as (S1 & S2 & S3 & S4 & S5). destruct s.
  - split; [done|]. split; [done|]. intros x Hx. apply S3 in Hx. split; [lia|]. split; [apply Hnl; lia|]. exists f. split; [by left|lia].
  - destruct (S5 eq_refl) as (L & -> & _). assert (Hm : N.max c f < u32_max) by (specialize (Hb f ltac:(by left)); lia).
    rewrite wrap_small by done. destruct (IH (room - length o)%nat (N.max c f + 1)) as (T1 & T2 & T3).
    + lia.
    + done.
    + intros g Hg. specialize (Hb g ltac:(by right)). lia.
    + specialize (Hb f ltac:(by left)). lia.
    + split; [|split].
      * apply sorted_app; [|done|done]. intros x y Hx Hy. apply S3 in Hx. apply T3 in Hy as [Hy _]. lia.
      * rewrite app_length. lia.
      * intros x Hx. apply elem_of_app in Hx as [Hx|Hx].
        -- apply S3 in Hx. split; [lia|]. split; [apply Hnl; lia|]. exists f. split; [by left|lia].
        -- apply T3 in Hx as (X1 & X2 & g & X3 & X4). split; [lia|]. split; [|exists g; split; [by right|done]].
           intros Hin. apply elem_of_cons in Hin as [->|Hin]; [lia|done].
Qed.
(** All of them, when no nonce is there twice *)
Lemma fill_complete l : forall room c, (0 < room)%nat -> StronglySorted N.lt l -> (forall f, f ∈ l -> c <= f <= u32_max) ->
  let out := fill_all room c l in
  StronglySorted N.lt out /\ (length out <= room)%nat /\ (forall x, x ∈ out -> c <= x /\ x ∉ l /\ exists f, f ∈ l /\ x < f)
  /\ forall x, c <= x -> x ∉ l -> (exists f, f ∈ l /\ x < f) -> x ∈ out \/ length out = room /\ forall y, y ∈ out -> y < x.
Proof.
  induction l as [|f l IH]; intros room c Hr Hs Hb; cbn [fill_all].
  { split; [constructor|]. split; [cbn; lia|]. split; [intros x Hx; by apply elem_of_nil in Hx|]. intros x _ _ (f & Hf & _). by apply elem_of_nil in Hf. }
  inversion Hs as [|? ? Hs' Hf]; subst. rewrite Forall_forall in Hf. pose proof (Hb f ltac:(by left)) as Hff.
  assert (Hnl : forall x, x < f -> x ∉ f :: l). { intros x Hx Hin. apply elem_of_cons in Hin as [->|Hin]; [lia|]. specialize (Hf x Hin). lia. }
  destruct (fill room c f) as [[o c'] s] eqn:E. destruct (fill_spec _ _ _ _ _ _ Hr (proj2 Hff) E) as (S1 & S2 & S3 & S4 & S5). destruct s.
  - split; [done|]. split; [done|]. split.
    + intros x Hx. apply S3 in Hx. split; [lia|]. split; [apply Hnl; lia|]. exists f. split; [by left|lia].
    + intros x X1 X2 X3. destruct (S4 eq_refl) as [L A]. destruct (N.ltb_spec x f) as [Hx|Hx].
      * destruct (A x ltac:(lia)); [by left|by right].
      * right. split; [done|]. intros y Hy. apply S3 in Hy. lia.
  - destruct (S5 eq_refl) as (L & -> & A). replace (N.max c f) with f by lia. destruct (decide (l = [])) as [->|Hne].
    { cbn [fill_all]. rewrite app_nil_r. split; [done|]. split; [lia|]. split.
      - intros x Hx. apply S3 in Hx. split; [lia|]. split; [apply Hnl; lia|]. exists f. split; [by left|lia].
      - intros x X1 X2 (g & G1 & G2). apply elem_of_list_singleton in G1 as ->. left. apply A. lia. }
    assert (Hlt : f < u32_max). { destruct l as [|g l]; [done|]. pose proof (Hf g ltac:(by left)). pose proof (Hb g ltac:(by right; left)). lia. }
    rewrite wrap_small by done. destruct (IH (room - length o)%nat (f + 1)) as (T1 & T2 & T3 & T4).
    + lia.
    + done.
    + intros g Hg. pose proof (Hf g Hg). pose proof (Hb g ltac:(by right)). lia.
    + split; [|split; [|split]].
      * apply sorted_app; [|done|done]. intros x y Hx Hy. apply S3 in Hx. apply T3 in Hy as [Hy _]. lia.
      * rewrite app_length. lia.
      * intros x Hx. apply elem_of_app in Hx as [Hx|Hx].
        -- apply S3 in Hx. split; [lia|]. split; [apply Hnl; lia|]. exists f. split; [by left|lia].
        -- apply T3 in Hx as (X1 & X2 & g & X3 & X4). split; [lia|]. split; [|exists g; split; [by right|done]].
           intros Hin. apply elem_of_cons in Hin as [->|Hin]; [lia|done].
      * intros x X1 X2 (g & G1 & G2). destruct (N.ltb_spec x f) as [Hx|Hx]; [left; apply elem_of_app; left; apply A; lia|].
        assert (x <> f) by (intros ->; apply X2; by left). apply elem_of_cons in G1 as [->|G1]; [lia|].
        destruct (T4 x) as [T|[T T']]; [lia|intros Hin; apply X2; by right|eauto|left; apply elem_of_app; by right|right].
        split; [rewrite app_length; lia|]. intros y Hy. apply elem_of_app in Hy as [Hy|Hy]; [apply S3 in Hy; lia|auto].
Qed.

(** The future transactions of the account *)
Let futures := omap (future_nonce a) (tags (p_future p)).
Lemma futures_spec n : n ∈ futures <-> has (p_future p) n.
Proof.
  unfold futures. rewrite elem_of_list_omap. split.
  - intros (t & Ht & E). unfold tags in Ht. apply elem_of_list_fmap in Ht as (e & -> & He). rewrite future_nonce_spec in E by set_solver.
    destruct (decide _); [|done]. injection E as <-. exists e. auto.
  - intros (e & He & Es & En). exists (v_provides (e_valid e)). split; [apply elem_of_list_fmap; eauto|]. rewrite future_nonce_spec by set_solver.
    rewrite decide_True by done. by rewrite En.
Qed.
Lemma futures_above c n : (forall m, has (p_ready p) m <-> start <= m < c) -> start <= c -> has (p_future p) n -> c < n.
Proof.
  intros Hc Hs (e & He & Es & En). assert (Hin : e ∈ p_ready p ++ p_future p) by set_solver.
  destruct (pr_future _ _ _ _ Hp e He) as (t & Ht & Hno). destruct (entry_tags e Hin) as (L & R & P). rewrite R in Ht. rewrite Es in *. fold start in L, R, Ht.
  destruct (N.ltb_spec start (nonce_of (e_tx e))) as [Hlt|]; [|by apply elem_of_nil in Ht]. apply elem_of_list_singleton in Ht as ->. rewrite En in *.
  destruct (N.ltb_spec c n) as [|Hge]; [done|]. exfalso. destruct (proj2 (Hc (n - 1))) as (e' & He' & Es' & En'); [lia|].
  apply (Hno e' He'). destruct (entry_tags e') as (_ & _ & P'); [set_solver|]. rewrite P', Es', En'. by left.
Qed.
Lemma pending_has n : pending p a n <-> has (p_ready p) n \/ has (p_future p) n.
Proof.
  unfold pending, has. split.
  - intros (e & He & ?). apply elem_of_app in He as [He|He]; eauto.
  - intros [(e & He & ?)|(e & He & ?)]; exists e; (split; [set_solver|done]).
Qed.
Lemma missing_iff c n : start <= c -> (forall m, has (p_ready p) m <-> start <= m < c) ->
  missing st p a n <-> c <= n /\ n ∉ futures /\ exists f, f ∈ futures /\ n < f.
Proof.
  intros Hs Hc. unfold missing. fold start. rewrite pending_has, futures_spec. split.
  - intros (M1 & M2 & m & M3 & M4). apply pending_has in M4. assert (c <= n).
    { destruct (N.leb_spec c n); [done|]. exfalso. apply M2. left. apply Hc. lia. }
    split; [done|]. split; [tauto|]. exists m. rewrite futures_spec. split; [|done]. destruct M4 as [M4|M4]; [|done]. apply Hc in M4. lia.
  - intros (M1 & M2 & f & M3 & M4). split; [lia|]. split; [intros [H|H]; [apply Hc in H; lia|done]|]. exists f. split; [done|]. apply pending_has. right. by apply futures_spec.
Qed.
Lemma futures_fit n : n ∈ futures -> n <= u32_max.
Proof. intros H. apply futures_spec in H as (e & He & _ & <-). destruct (pr_fits _ _ _ _ Hp e); [set_solver|done]. Qed.

Lemma sound_lemma : (forall n, pending p a n -> n + len (p_future p) <= u32_max) ->
  StronglySorted N.lt (missing_nonces st p a) /\ (length (missing_nonces st p a) <= 1000)%nat
  /\ forall n, n ∈ missing_nonces st p a -> missing st p a n.
Proof.
  intros Hb. destruct walk_lemma as (c & [C1 C2] & W & Hc). unfold missing_nonces, get_missing_nonces. fold start. fold (tags (p_ready p)). fold (tags (p_future p)).
  change max_missing with 1000%nat. fold futures.
  destruct (decide (futures = [])) as [->|Hne].
  { cbn [sort_nonces foldr fill_all]. split; [constructor|]. split; [cbn; lia|]. intros n Hn. by apply elem_of_nil in Hn. }
  assert (Hle : len futures <= len (p_future p)).
  { unfold futures, len, tags. assert ((length (omap (future_nonce a) (map (fun e => v_provides (e_valid e)) (p_future p))) <= length (p_future p))%nat); [|lia].
    generalize (p_future p). clear. intros l. induction l as [|e l IH]; [cbn; lia|]. cbn. unfold omap in IH. destruct (future_nonce _ _); cbn [length]; [apply le_n_S|apply le_S]; exact IH. }
  assert (Hcu : c <= u32_max).
  { destruct futures as [|f r] eqn:Ef; [done|]. assert (Hf : f ∈ futures) by (rewrite Ef; by left). pose proof (futures_fit f Hf).
    apply futures_spec in Hf. apply (futures_above c) in Hf; [lia|done|done]. }
  rewrite W by done. pose proof (sort_perm futures) as Hperm. assert (Hlen : len (sort_nonces futures) = len futures) by (unfold len; by rewrite Hperm).
  assert (Hfb : forall f, f ∈ futures -> f + len futures <= u32_max).
  { intros f Hf. apply futures_spec in Hf. specialize (Hb f). rewrite pending_has in Hb. specialize (Hb (or_intror Hf)). lia. }
  destruct (fill_sound (sort_nonces futures) 1000 c) as (S1 & S2 & S3).
  - lia.
  - apply sort_ok.
  - intros f Hf. rewrite Hperm in Hf. rewrite Hlen. auto.
  - rewrite Hlen. destruct futures as [|f r] eqn:Ef; [done|]. assert (Hf : f ∈ futures) by (rewrite Ef; by left).
    specialize (Hfb f ltac:(by left)). apply futures_spec in Hf. apply (futures_above c) in Hf; [lia|done|done].
  - split; [done|]. split; [done|]. intros n Hn. apply (missing_iff c); [done|done|]. destruct (S3 n Hn) as (X1 & X2 & f & X3 & X4).
    rewrite Hperm in X2, X3. eauto.
Qed.

Lemma distinct_nodup : distinct_future p a -> NoDup futures.
Proof.
  unfold distinct_future, futures, tags. intros Hd. assert (G : forall l, (forall e, e ∈ l -> e ∈ p_ready p ++ p_future p) ->
    (forall i j e e', l !! i = Some e -> l !! j = Some e' -> sender (e_tx e) = a -> sender (e_tx e') = a -> nonce_of (e_tx e) = nonce_of (e_tx e') -> i = j) ->
    NoDup (omap (future_nonce a) (map (fun e => v_provides (e_valid e)) l))).
  { induction l as [|e l IH]; intros Hin Hl; cbn; [constructor|]. rewrite future_nonce_spec by (apply Hin; by left).
    assert (IH' : NoDup (omap (future_nonce a) (map (fun e => v_provides (e_valid e)) l))).
    { apply IH; [intros e' He'; apply Hin; by right|]. intros i j e1 e2 H1 H2 A1 A2 A3. assert (S i = S j); [|lia]. by apply (Hl (S i) (S j) e1 e2). }
    destruct (decide (sender (e_tx e) = a)) as [Es|]; [|done]. constructor; [|done]. intros Hn. apply elem_of_list_omap in Hn as (t & Ht & E).
    apply elem_of_list_fmap in Ht as (e' & -> & He'). rewrite future_nonce_spec in E by (apply Hin; by right). destruct (decide _) as [Es'|]; [|done]. injection E as E.
    apply elem_of_list_lookup in He' as [j Hj]. assert (0%nat = S j); [|lia]. apply (Hl 0%nat (S j) e e'); auto. }
  apply G; [set_solver|done].
Qed.
Lemma strict l : StronglySorted N.le l -> NoDup l -> StronglySorted N.lt l.
Proof.
  induction 1 as [|x l Hs IH Hf]; intros Hn; [constructor|]. apply NoDup_cons in Hn as [Hx Hn]. constructor; [auto|].
  rewrite Forall_forall in *. intros y Hy. specialize (Hf y Hy). assert (x <> y) by (intros ->; done). lia.
Qed.
Lemma complete_lemma : distinct_future p a ->
  StronglySorted N.lt (missing_nonces st p a) /\ (length (missing_nonces st p a) <= 1000)%nat
  /\ (forall n, n ∈ missing_nonces st p a -> missing st p a n)
  /\ forall n, missing st p a n -> n ∈ missing_nonces st p a \/ length (missing_nonces st p a) = 1000%nat /\ forall m, m ∈ missing_nonces st p a -> m < n.
Proof.
  intros Hd. destruct walk_lemma as (c & [C1 C2] & W & Hc). unfold missing_nonces, get_missing_nonces. fold start. fold (tags (p_ready p)). fold (tags (p_future p)).
  change max_missing with 1000%nat. fold futures.
  destruct (decide (futures = [])) as [E|Hne].
  { rewrite E. cbn [sort_nonces foldr fill_all]. split; [constructor|]. split; [cbn; lia|]. split; [intros n Hn; by apply elem_of_nil in Hn|].
    intros n Hn. apply (missing_iff c) in Hn as (_ & _ & f & Hf & _); [|done|done]. rewrite E in Hf. by apply elem_of_nil in Hf. }
  assert (Hfa : forall f, f ∈ futures -> c < f <= u32_max).
  { intros f Hf. split; [|by apply futures_fit]. apply futures_spec in Hf. by apply (futures_above c) in Hf. }
  assert (Hcu : c <= u32_max).
  { destruct futures as [|f r]; [done|]. specialize (Hfa f ltac:(by left)). lia. }
  rewrite W by done. pose proof (sort_perm futures) as Hperm.
  destruct (fill_complete (sort_nonces futures) 1000 c) as (S1 & S2 & S3 & S4).
  - lia.
  - apply strict; [apply sort_ok|]. rewrite Hperm. by apply distinct_nodup.
  - intros f Hf. rewrite Hperm in Hf. specialize (Hfa f Hf). lia.
  - split; [done|]. split; [done|]. split.
    + intros n Hn. apply (missing_iff c); [done|done|]. destruct (S3 n Hn) as (X1 & X2 & f & X3 & X4). rewrite Hperm in X2, X3. eauto.
    + intros n Hn. apply (missing_iff c) in Hn as (X1 & X2 & f & X3 & X4); [|done|done]. apply S4; [done|by rewrite Hperm|]. exists f. by rewrite Hperm.
Qed.
End missing.
End val.

(** ** Bytes in JSON *)
Lemma hex_digit_val d : d < 16 -> hex_val (hex_digit d) = Some d.
Proof.
  intros H. unfold hex_digit. destruct (N.ltb_spec d 10).
  - unfold hex_val. destruct (N.leb_spec 48 (48 + d)); [|lia]. destruct (N.leb_spec (48 + d) 57); [|lia]. cbn. f_equal. lia.
  - unfold hex_val. destruct (N.leb_spec 48 (87 + d)); [|lia]. destruct (N.leb_spec (87 + d) 57); [lia|]. cbn [andb].
    destruct (N.leb_spec 65 (87 + d)); [|lia]. destruct (N.leb_spec (87 + d) 70); [lia|]. cbn [andb].
    destruct (N.leb_spec 97 (87 + d)); [|lia]. destruct (N.leb_spec (87 + d) 102); [|lia]. cbn. f_equal. lia.
Qed.
Lemma hex_body bs : Forall (fun b => b < 256) bs -> hex_bytes None (concat (map hex_of_byte bs)) = Some bs /\ N.odd (len (concat (map hex_of_byte bs))) = false.
Proof.
  induction 1 as [|b bs Hb Hbs [IH1 IH2]]; [done|]. cbn [map concat hex_of_byte app hex_bytes].
  assert (b / 16 < 16) by (apply N.div_lt_upper_bound; lia). pose proof (N.mod_lt b 16 ltac:(lia)).
  rewrite !hex_digit_val by done. rewrite IH1. cbn [option_map]. split.
  - f_equal. f_equal. pose proof (N.div_mod b 16 ltac:(lia)). lia.
  - rewrite !len_cons. replace (_ + 1 + 1) with (len (concat (map hex_of_byte bs)) + 2 * 1) by lia. by rewrite N.odd_add_mul_2.
Qed.
Lemma hex_round bs : Forall (fun b => b < 256) bs -> from_hex (as_hex bs) = Some bs.
Proof.
  intros H. unfold from_hex, as_hex. rewrite strip_app. destruct (hex_body bs H) as [E1 E2]. rewrite E2. done.
Qed.

(** Proofs of the runtime properties: transactions. *)
From Verif Require Import Prelude Scale CommonTypes SigModel MsaModel CapModel TrModel StModel HModel ScModel MgModel FeeModel RtModel.
From Verif Require Import MsaSpec CapSpec TrSpec FeeSpec RtSpec RtProofs RtProj RtFinal.
From Verif Require MsaProofs CapProofs TrProofs FeeFinal ScSpec ScFinal StSpec.

Section rt.
Variable cfg : RtCfg.

(** ** C80, C81: capacity transactions *)
Definition money (s : RtState) := (rs_cap s, rs_bal s, rs_tr s, rs_nonce s, rs_proxies s, rs_sc s).
Lemma eligible_leaf c o s s' : get_stable_weight c <> None -> rt_dispatch cfg c o s = Ok s' -> money s' = money s.
Proof.
  intros He H. assert (Hp : plain c) by (by destruct c). apply leaf_inv in H as [_ H]; [|done].
  destruct c; try done; by destruct H as (x & _ & ->).
Qed.
Lemma eligible_batch k f l : (forall c, c ∈ l -> forall s s', f c s = Ok s' -> money s' = money s) ->
  forall s s', run_batch k f l s = Ok s' -> money s' = money s.
Proof. apply (run_batch_same (fun a b => money b = money a)); [done|congruence]. Qed.
Lemma eligible_run c calls o s s' : wraps c calls -> eligible calls -> rt_dispatch cfg c o s = Ok s' -> money s' = money s.
Proof.
  intros [(x & -> & ->)| ->] He H; cbn [rt_dispatch] in H; (destruct (base_filter _ _ && _); [|done]).
  - inversion He; subst. eapply eligible_leaf; [by apply FeeFinal.payable_iff|eassumption].
  - destruct (_ <=? _); [|done]. eapply eligible_batch; [|exact H]. intros c Hc a b. apply eligible_leaf, FeeFinal.payable_iff. by eapply (proj1 (Forall_forall _ _) He).
Qed.

Lemma pay_apply s t calls : wraps (tx_call t) calls ->
  tx_apply cfg s t =
  let! s1 := check_nonce s (tx_who t) (tx_nonce t) true in
  let! s2 := withdraw_capacity_fee cfg s1 (tx_who t) calls (tx_len t) in
  Ok (run_call cfg (tx_call t) (signed (tx_who t)) s2).
Proof. intros [(x & E & ->)|E]; unfold tx_apply; rewrite E; done. Qed.

Definition charged (s : RtState) (t : Tx) (m : N) (y : CapState) : RtState :=
  up_cap_ (up_nonce_ s (<[tx_who t := wrap_add u32_max (tx_nonce t) 1]> (rs_nonce s))) y.
Lemma pay_ok s t calls out : wraps (tx_call t) calls -> tx_len t <= u32_max ->
  tx_apply cfg s t = Ok out <->
  tx_nonce t = nonce s (tx_who t) /\ eligible calls /\ r_ed cfg <= balance s (tx_who t)
  /\ exists m y, controls (rs_msa s) (tx_who t) m /\ cap_spend (rs_cap s) m (capacity_fee calls (tx_len t)) = Ok y
     /\ out = run_call cfg (tx_call t) (signed (tx_who t)) (charged s t m y).
Proof.
  intros Hw Hn. rewrite (pay_apply _ _ _ Hw). destruct (check_nonce _ _ _ _) as [s1|] eqn:E1.
  2:{ split; [done|]. intros (E & _). unfold check_nonce in E1. rewrite E, N.leb_refl in E1. by cbn in E1. }
  apply check_ok in E1 as [En ->]. cbn [orb]. set (s1 := up_nonce_ _ _).
  unfold withdraw_capacity_fee. destruct (capacity_charge _ _) as [fee|] eqn:Ec.
  2:{ split; [done|]. intros (_ & He & _). by rewrite (proj2 (FeeFinal.charge_calls _ _ _ Hn) (conj He eq_refl)) in Ec. }
  apply FeeFinal.charge_calls in Ec as [He Ef]; [|done]. change (fee = capacity_fee calls (tx_len t)) in Ef. subst fee.
  change (balance s1 (tx_who t)) with (balance s (tx_who t)). destruct (N.leb_spec (r_ed cfg) (balance s (tx_who t))); [|split; [done|intros (_ & _ & ? & _); lia]].
  change (rs_msa s1) with (rs_msa s). change (rs_cap s1) with (rs_cap s). unfold controls.
  destruct (ms_keys (rs_msa s) !! tx_who t) as [m|] eqn:Em; [|split; [done|intros (_ & _ & _ & m & y & ? & _); congruence]].
  destruct (cap_spend (rs_cap s) m _) as [y|] eqn:Ey.
  2:{ split; [done|]. intros (_ & _ & _ & m' & y & [= <-] & E & _). congruence. }
  split.
  - intros [= <-]. split; [done|]. split; [done|]. split; [done|]. by exists m, y.
  - intros (_ & _ & _ & m' & y' & [= <-] & E & ->). rewrite Ey in E. by injection E as <-.
Qed.

Lemma spend_ok s m fee : (exists y, cap_spend s m fee = Ok y) <-> is_Some (cs_cap s !! m) /\ fee <= spendable s m.
Proof.
  destruct (CapProofs.payment_lemma (r_cap cfg) s m fee) as [H _]. cbn [cap_apply] in H. unfold spendable. rewrite <- H.
  destruct (cap_spend s m fee); cbn; split; try done; [by eexists|by intros []].
Qed.

Lemma accepted_lemma s t calls : wraps (tx_call t) calls -> tx_len t <= u32_max ->
  is_ok (tx_apply cfg s t) = true <->
  tx_nonce t = nonce s (tx_who t) /\ eligible calls /\ r_ed cfg <= balance s (tx_who t)
  /\ exists m, controls (rs_msa s) (tx_who t) m /\ is_Some (cs_cap (rs_cap s) !! m)
     /\ capacity_fee calls (tx_len t) <= spendable (rs_cap s) m.
Proof.
  intros Hw Hn. split.
  - destruct (tx_apply cfg s t) as [out|] eqn:E; [|done]. intros _. apply (pay_ok _ _ _ _ Hw Hn) in E as (H1 & H2 & H3 & m & y & H4 & H5 & _).
    split; [done|]. split; [done|]. split; [done|]. exists m. split; [done|]. apply spend_ok. by exists y.
  - intros (H1 & H2 & H3 & m & H4 & H5). apply spend_ok in H5 as [y H5].
    assert (E : tx_apply cfg s t = Ok (run_call cfg (tx_call t) (signed (tx_who t)) (charged s t m y))).
    { apply (pay_ok _ _ _ _ Hw Hn). split; [done|]. split; [done|]. split; [done|]. by exists m, y. }
    by rewrite E.
Qed.

Lemma run_call_money c calls o s s' r : wraps c calls -> eligible calls -> run_call cfg c o s = (s', r) -> money s' = money s.
Proof. unfold run_call. intros Hw He. destruct (rt_dispatch _ _ _ _) eqn:E; intros [= <- _]; [by eapply eligible_run|done]. Qed.

Lemma charge_lemma s t calls s' r : wraps (tx_call t) calls -> tx_len t <= u32_max -> tx_apply cfg s t = Ok (s', r) ->
  exists m, controls (rs_msa s) (tx_who t) m
  /\ remaining (rs_cap s') m + capacity_fee calls (tx_len t) = spendable (rs_cap s) m
  /\ issued (rs_cap s') m = issued (rs_cap s) m
  /\ (forall m', m' <> m -> cs_cap (rs_cap s') !! m' = cs_cap (rs_cap s) !! m')
  /\ cs_staking (rs_cap s') = cs_staking (rs_cap s) /\ cs_targets (rs_cap s') = cs_targets (rs_cap s)
  /\ cs_unlocks (rs_cap s') = cs_unlocks (rs_cap s) /\ cs_freeze (rs_cap s') = cs_freeze (rs_cap s)
  /\ rs_bal s' = rs_bal s /\ rs_tr s' = rs_tr s.
Proof.
  intros Hw Hn H. apply (pay_ok _ _ _ _ Hw Hn) in H as (_ & He & _ & m & y & Hm & Hy & Eo).
  symmetry in Eo. apply (run_call_money _ _ _ _ _ _ Hw He) in Eo. unfold money in Eo. injection Eo as E1 E2 E3 _ _ _.
  exists m. split; [done|]. rewrite E1, E2, E3. cbn [charged up_cap_ up_nonce_ rs_cap rs_bal rs_tr].
  assert (Hs : is_Some (cs_cap (rs_cap s) !! m) /\ capacity_fee calls (tx_len t) <= spendable (rs_cap s) m) by (apply spend_ok; by exists y).
  destruct (CapProofs.payment_lemma (r_cap cfg) (rs_cap s) m (capacity_fee calls (tx_len t))) as [_ H].
  destruct (H y Hy) as (R & I & _ & _ & O & _ & S1 & S2 & S3 & S4 & _). clear H.
  change (remaining y m = spendable (rs_cap s) m - capacity_fee calls (tx_len t)) in R.
  split; [rewrite R; destruct Hs; lia|]. done.
Qed.

Lemma too_long_lemma s t l s' r : tx_call t = RPayBatch l -> r_max_batch cfg < len l -> tx_len t <= u32_max ->
  tx_apply cfg s t = Ok (s', r) -> r = Some XBatchTooLong /\ same_but_fee s s'.
Proof.
  intros Et Hl Hn H. apply (pay_ok _ _ l _ ltac:(by right) Hn) in H as (_ & _ & _ & m & y & _ & _ & Eo).
  unfold run_call in Eo. rewrite Et in Eo. cbn [rt_dispatch base_filter is_create_call] in Eo. rewrite andb_false_r in Eo. cbn [negb andb signed o_filter] in Eo.
  destruct (N.leb_spec (len l) (r_max_batch cfg)); [lia|]. injection Eo as -> ->. by unfold same_but_fee.
Qed.
Lemma atomic_lemma s t calls s' e : wraps (tx_call t) calls -> tx_len t <= u32_max -> tx_apply cfg s t = Ok (s', Some e) -> same_but_fee s s'.
Proof.
  intros Hw Hn H. apply (pay_ok _ _ _ _ Hw Hn) in H as (_ & _ & _ & m & y & _ & _ & Eo).
  unfold run_call in Eo. destruct (rt_dispatch _ _ _ _); [done|]. by injection Eo as -> _.
Qed.
(** [batch_all]'s filter is no obstacle to an eligible call. *)
Lemma eligible_filter c o s f : get_stable_weight c <> None -> f c = o_filter o c ->
  rt_dispatch cfg c {| o_who := o_who o; o_filter := f |} s = rt_dispatch cfg c o s.
Proof. intros He E. destruct c; try done; cbn [rt_dispatch o_filter o_who]; by rewrite E. Qed.
Lemma ran_lemma s t calls s' : wraps (tx_call t) calls -> tx_len t <= u32_max -> tx_apply cfg s t = Ok (s', None) ->
  (forall l, tx_call t = RPayBatch l -> len l <= r_max_batch cfg) /\
  exists s1, same_but_fee s s1 /\ all_ran cfg (tx_who t) calls s1 s'.
Proof.
  intros Hw Hn H. apply (pay_ok _ _ _ _ Hw Hn) in H as (_ & He & _ & m & y & _ & _ & Eo).
  unfold run_call in Eo. destruct (rt_dispatch _ _ _ _) as [s2|] eqn:E; [|done]. injection Eo as <-. split.
  - intros l El. rewrite El in E. cbn [rt_dispatch] in E. destruct (base_filter _ _ && _); [|done]. destruct (N.leb_spec (len l) (r_max_batch cfg)); [done|done].
  - exists (charged s t m y). split; [by unfold same_but_fee|]. revert E. generalize (charged s t m y). intros s1 E.
    destruct Hw as [(x & Ex & ->)|Ex]; rewrite Ex in E; cbn [rt_dispatch] in E; (destruct (base_filter _ _ && _); [|done]).
    + by exists s'.
    + destruct (_ <=? _); [|done]. clear Ex Hn. revert s1 E. induction He as [|c l Hc He IH]; intros s1 E; cbn [run_batch] in E; [by injection E as <-|].
      destruct (rt_dispatch _ c _ s1) as [s3|] eqn:E3; [|done]. exists s3. split; [|by apply IH].
      rewrite <- E3. symmetry. apply (eligible_filter c (signed (tx_who t))); [by apply FeeFinal.payable_iff|]. by destruct c.
Qed.

(** ** C84: nonces *)
Definition falls (w : N) (s s' : RtState) : Prop := nonce s' w = nonce s w \/ nonce s' w = 0.
Lemma falls_trans w a b c : falls w a b -> falls w b c -> falls w a c.
Proof. unfold falls. intros [E1|E1] [E2|E2]; rewrite E2; auto. Qed.
Lemma nonce_transfer w s k a b n s' : token_transfer cfg s k a b n = Ok s' -> falls w s s'.
Proof.
  intros H. apply transfer_same in H as [_ [E|E]]; unfold falls, nonce; rewrite E; [by left|].
  destruct (decide (w = a)) as [->|]; [rewrite lookup_delete; by right|rewrite lookup_delete_ne by done; by left].
Qed.
Lemma nonce_leaf w c o s s' : plain c -> rt_dispatch cfg c o s = Ok s' -> falls w s s' /\ (moves_tokens c \/ nonce s' w = nonce s w).
Proof.
  intros Hp H. apply leaf_inv in H as [_ H]; [|done]. destruct c as [c|c|c|c|c|c|c|c| | | | | | |]; try done;
    try (by destruct H as (x & _ & ->); split; [left|right]).
  - destruct c; cbn [cap_dispatch] in H; try done; apply lift_ok in H as (x & _ & E); injection E as <-; by split; [left|right].
  - destruct c as [|to sch|x l|x]; cbn [time_dispatch] in H; try done; apply lift_ok in H as (y & _ & E); [injection E as <-; by split; [left|right]| |injection E as <-; by split; [left|right]].
    split; [|by left]. destruct (match sc_total sch with Some a => _ | None => _ end) as [s1|] eqn:Em; [|done]. injection E as <-.
    destruct (sc_total sch) as [a|]; [|done]. by apply (nonce_transfer w) in Em.
  - split; [|by left]. destruct c; cbn [bal_dispatch] in H; by eapply nonce_transfer.
  - rewrite H. by split; [left|right].
  - rewrite H. by split; [left|right].
Qed.
Lemma nonce_run w c o s s' r : run_call cfg c o s = (s', r) -> falls w s s' /\ (nonce s' w = nonce s w \/ exists c', c' ∈ leaves c /\ moves_tokens c').
Proof.
  intros H. pose (R := fun a b => falls w a b /\ (nonce b w = nonce a w \/ exists c', c' ∈ leaves c /\ moves_tokens c')).
  change (R s s'). eapply (run_call_rel cfg R); [..|exact H].
  - split; by left.
  - intros x y z [A1 A2] [B1 B2]. split; [by eapply falls_trans|]. destruct A2 as [A2|]; [|by right]. rewrite <- A2. done.
  - intros c' o' x y Hin Hp Hd. destruct (nonce_leaf w _ _ _ _ Hp Hd) as [F [M|E]]; (split; [done|]); [right; eauto|by left].
Qed.
Lemma nonce_debit w s x a s' : token_debit cfg s true x a = Some s' -> nonce s' w = nonce s w.
Proof. unfold token_debit. intros H. destruct (_ <? a); [done|]. destruct (_ <? RtModel.frozen _ _); [done|]. destruct (_ <? r_ed cfg); [done|]. by injection H as <-. Qed.
Lemma nonce_token_fee w s x c n tip s' : withdraw_token_fee cfg s x c n tip = Ok s' -> nonce s' w = nonce s w.
Proof.
  unfold withdraw_token_fee. intros H. destruct (_ =? 0); [by injection H as <-|]. destruct (token_debit _ _ _ _ _) eqn:E; [|done].
  injection H as <-. by eapply nonce_debit.
Qed.
Lemma nonce_fee w s x c n tip s' : withdraw_fee cfg s x c n tip = Ok s' -> nonce s' w = nonce s w.
Proof.
  assert (Hc : forall l, withdraw_capacity_fee cfg s x l n = Ok s' -> nonce s' w = nonce s w).
  { intros l. unfold withdraw_capacity_fee. intros H. destruct (capacity_charge _ _); [|done]. destruct (_ <=? _); [|done].
    destruct (ms_keys _ !! _); [|done]. destruct (cap_spend _ _ _); [|done]. by injection H as <-. }
  destruct c; cbn [withdraw_fee]; first [apply nonce_token_fee|apply Hc].
Qed.
Lemma nonce_check w s x n p s1 : check_nonce s x n p = Ok s1 -> nonce s x <= u32_max ->
  nonce s1 w = nonce s w \/ w = x /\ (nonce s x = u32_max /\ nonce s1 w = 0 \/ nonce s1 w = nonce s x + 1 /\ nonce s x < u32_max).
Proof.
  intros H Hb. apply check_ok in H as [-> ->]. destruct (_ || _); [|by left]. unfold nonce at 1 5 7. cbn [up_nonce_ rs_nonce].
  destruct (decide (w = x)) as [->|]; [|left; by rewrite lookup_insert_ne]. right. split; [done|]. rewrite lookup_insert. cbn [default].
  unfold id, wrap_add. destruct (N.eq_dec (nonce s x) u32_max) as [->|]; [left; done|]. right. rewrite N.mod_small by lia. lia.
Qed.

(** A step keeps a nonce, raises it by one, or resets it. *)
Lemma nonce_step x s w : (forall a, nonce s a <= u32_max) ->
  nonce (rt_step cfg s x) w <= u32_max /\ (nonce s w <= nonce (rt_step cfg s x) w \/
  nonce (rt_step cfg s x) w = 0 /\ (nonce s w = u32_max \/ exists c, c ∈ calls_of x /\ moves_tokens c)).
Proof.
  intros Hb. pose proof (Hb w) as Hw. destruct x as [r|t|p|c]; cbn [rt_step calls_of call_of].
  - split; [done|]. left. done.
  - unfold tx_apply. destruct (check_nonce _ _ _ _) as [s1|] eqn:E1; [|by split; [|left]].
    destruct (withdraw_fee _ _ _ _ _ _) as [s2|] eqn:E2; [|by split; [|left]]. destruct (free_use _ _ _); [|by split; [|left]].
    destruct (run_call _ _ _ _) as [s3 r] eqn:E3. apply (nonce_check w) in E1; [|done]. apply (nonce_fee w) in E2. apply (nonce_run w) in E3 as [F M].
    unfold falls in F. rewrite E2 in *.
    destruct E1 as [E1|[-> [[E1 E1']|[E1 E1']]]]; destruct F as [F|F]; rewrite ?F; (split; [lia|]); try (left; lia).
    + rewrite F in M. destruct M as [M|M]; [left; lia|]. right. split; [done|]. by right.
    + right. split; [done|]. by left.
    + right. split; [done|]. by left.
    + right. split; [done|]. rewrite F in M. destruct M as [M|M]; [lia|by right].
  - unfold passkey_apply. destruct (negb _); [|by split; [|left]]. destruct (passkey_filter _); [|by split; [|left]]. destruct (r_verify _ _ _ _); [|by split; [|left]].
    destruct (check_nonce _ _ _ _) as [s1|] eqn:E1; [|by split; [|left]].
    destruct (withdraw_token_fee _ _ _ _ _ _) as [s2|] eqn:E2; [|by split; [|left]].
    destruct (run_call _ _ _ _) as [s3 r] eqn:E3. apply (nonce_check w) in E1; [|done]. apply (nonce_token_fee w) in E2. apply (nonce_run w) in E3 as [F M].
    unfold falls in F. rewrite E2 in *.
    destruct E1 as [E1|[-> [[E1 E1']|[E1 E1']]]]; destruct F as [F|F]; rewrite ?F; (split; [lia|]); try (left; lia).
    + rewrite F in M. destruct M as [M|M]; [left; lia|]. right. split; [done|]. by right.
    + right. split; [done|]. by left.
    + right. split; [done|]. by left.
    + right. split; [done|]. rewrite F in M. destruct M as [M|M]; [lia|by right].
  - destruct (gov_apply cfg s c) as [s'|] eqn:E; [|by split; [|left]].
    assert (H : nonce s' w = nonce s w); [|rewrite H; by split; [|left]].
    destruct c; cbn [gov_apply] in E; apply lift_ok in E as (y & _ & E); by injection E as <-.
Qed.
Lemma nonce_bound h : forall s, (forall a, nonce s a <= u32_max) -> forall a, nonce (rt_run cfg s h) a <= u32_max.
Proof.
  induction h as [|x h IH]; intros s Hs; [done|]. change (rt_run cfg s (x :: h)) with (rt_run cfg (rt_step cfg s x) h).
  apply IH. intros a. by apply nonce_step.
Qed.
Lemma nonce_grows h : forall s w n, (forall a, nonce s a <= u32_max) -> n <= nonce s w ->
  (forall i, nonce (rt_run cfg s (take i h)) w <> 0) -> n <= nonce (rt_run cfg s h) w.
Proof.
  induction h as [|x h IH]; intros s w n Hs Hn Hz; [done|]. change (rt_run cfg s (x :: h)) with (rt_run cfg (rt_step cfg s x) h).
  apply IH; [intros a; by apply nonce_step| |].
  - destruct (nonce_step x s w Hs) as [_ [H|[H _]]]; [lia|]. by destruct (Hz 1%nat).
  - intros i. exact (Hz (S i)).
Qed.
Lemma genesis_nonce b mm v a : nonce (rt_start b mm v) a <= u32_max.
Proof. unfold nonce. cbn [rt_start up_tr_ rt_genesis rs_nonce]. by rewrite lookup_empty. Qed.

Lemma nonce_set s w n : nonce (up_nonce_ s (<[w := n]> (rs_nonce s))) w = n.
Proof. unfold nonce. cbn [up_nonce_ rs_nonce]. by rewrite lookup_insert. Qed.
Lemma stale_lemma b mm v h t s1 r h' :
  let s := rt_run cfg (rt_start b mm v) h in
  is_pays_no_call (tx_call t) = false \/ 0 < balance s (tx_who t) ->
  tx_apply cfg s t = Ok (s1, r) -> (forall i, nonce (rt_run cfg s1 (take i h')) (tx_who t) <> 0) ->
  tx_apply cfg (rt_run cfg s1 h') t = Err IStale.
Proof.
  intros s Hp H Hz.
  assert (Hs : forall a, nonce s a <= u32_max) by (apply nonce_bound, genesis_nonce).
  assert (Hs1 : forall a, nonce s1 a <= u32_max).
  { intros a. pose proof (nonce_step (STx t) s a Hs) as [Hb _]. cbn [rt_step] in Hb. by rewrite H in Hb. }
  assert (Hgt : tx_nonce t < nonce s1 (tx_who t)).
  { pose proof (Hz 0%nat) as H0. rewrite take_0 in H0. change (nonce s1 (tx_who t) <> 0) in H0. revert H. unfold tx_apply.
    destruct (check_nonce _ _ _ _) as [x1|] eqn:E1; [|done]. destruct (withdraw_fee _ _ _ _ _ _) as [x2|] eqn:E2; [|done]. destruct (free_use _ _ _); [|done].
    intros [= E3]. apply (nonce_run (tx_who t)) in E3 as [[F|F] _]; [|done]. apply (nonce_fee (tx_who t)) in E2.
    pose proof E1 as E1'. apply check_ok in E1' as [En _]. unfold check_nonce in E1. rewrite En, N.leb_refl in E1.
    rewrite F, E2 in H0. rewrite F, E2. clear F E2. destruct (_ || exists_account _ _) eqn:Ep; injection E1 as <-.
    - rewrite nonce_set in *. unfold wrap_add in *. rewrite En. pose proof (Hs (tx_who t)).
      destruct (N.eq_dec (nonce s (tx_who t)) u32_max) as [Eq|]; [by rewrite Eq in H0|]. rewrite N.mod_small by lia. lia.
    - apply orb_false_iff in Ep as [Ep1 Ep2]. unfold exists_account in Ep2. apply orb_false_iff in Ep2 as [Ep2 _]. apply N.ltb_ge in Ep2.
      destruct Hp as [Hp|Hp]; [by rewrite Hp in Ep1|lia]. }
  pose proof (nonce_grows h' s1 (tx_who t) (tx_nonce t + 1) Hs1 ltac:(lia) Hz) as Hg.
  unfold tx_apply, check_nonce. destruct (N.leb_spec (nonce (rt_run cfg s1 h') (tx_who t)) (tx_nonce t)); [lia|done].
Qed.

Lemma passkey_stale_lemma b mm v h p s1 r h' :
  let s := rt_run cfg (rt_start b mm v) h in
  passkey_apply cfg s p = Ok (s1, r) -> (forall i, nonce (rt_run cfg s1 (take i h')) (pk_account p) <> 0) ->
  passkey_apply cfg (rt_run cfg s1 h') p = Err IStale.
Proof.
  intros s H Hz.
  assert (Hs : forall a, nonce s a <= u32_max) by (apply nonce_bound, genesis_nonce).
  assert (Hs1 : forall a, nonce s1 a <= u32_max).
  { intros a. pose proof (nonce_step (SPasskey p) s a Hs) as [Hb _]. cbn [rt_step] in Hb. by rewrite H in Hb. }
  pose proof (Hz 0%nat) as H0. rewrite take_0 in H0. change (nonce s1 (pk_account p) <> 0) in H0. revert H. unfold passkey_apply at 1.
  destruct (negb (r_mainnet cfg)) eqn:Em; [|done]. destruct (passkey_filter (pk_call p)) eqn:Ef; [|done]. destruct (r_verify _ _ _ _) eqn:Ev; [|done].
  destruct (check_nonce _ _ _ _) as [x1|] eqn:E1; [|done]. destruct (withdraw_token_fee _ _ _ _ _ _) as [x2|] eqn:E2; [|done].
  intros [= E3]. apply (nonce_run (pk_account p)) in E3 as [[F|F] _]; [|done]. apply (nonce_token_fee (pk_account p)) in E2.
  apply check_ok in E1 as [En E1]. assert (Hpay : is_pays_no_call (pk_call p) = false) by (by destruct (pk_call p)). rewrite Hpay in E1. cbn [negb orb] in E1. subst x1.
  rewrite E2, nonce_set in F. rewrite F in H0. unfold wrap_add in *. pose proof (Hs (pk_account p)) as Hb.
  assert (Hgt : nonce s1 (pk_account p) = pk_nonce p + 1).
  { destruct (N.eq_dec (nonce s (pk_account p)) u32_max) as [Eq|]; [by rewrite En, Eq in H0|]. rewrite F. apply N.mod_small. lia. }
  pose proof (nonce_grows h' s1 (pk_account p) (pk_nonce p + 1) Hs1 ltac:(lia) Hz) as Hg.
  unfold passkey_apply, check_nonce. rewrite Em, Ef, Ev. destruct (N.leb_spec (nonce (rt_run cfg s1 h') (pk_account p)) (pk_nonce p)); [lia|done].
Qed.

(** ** C110: vesting tokens stay *)
Notation vested s a := (vesting_frozen (rs_tr s) a).
Definition kept (s : RtState) : Prop :=
  TrProofs.tr_inv (r_tr cfg) (rs_tr s) (rs_relay s) /\ forall a, vested s a <= balance s a.

Lemma kept_parts s s' : rs_tr s' = rs_tr s -> rs_relay s' = rs_relay s -> (forall a, vested s a <= balance s' a) -> kept s -> kept s'.
Proof. intros E1 E2 H [I _]. split; [by rewrite E1, E2|]. intros a. by rewrite E1. Qed.
Lemma frozen_ge s a : vested s a <= RtModel.frozen s a.
Proof. unfold RtModel.frozen, vesting_frozen. lia. Qed.
Lemma debit_bal s k w a s' : token_debit cfg s k w a = Some s' ->
  a + RtModel.frozen s w <= balance s w /\ (balance s' w = balance s w - a \/ balance s' w = 0 /\ RtModel.frozen s w = 0).
Proof.
  unfold token_debit. intros H. destruct (N.ltb_spec (balance s w) a); [done|]. destruct (N.ltb_spec (balance s w - a) (RtModel.frozen s w)); [done|].
  split; [lia|]. destruct (_ <? r_ed cfg).
  - destruct (N.eqb_spec (RtModel.frozen s w) 0); [|by rewrite orb_true_r in H]. right. split; [|done].
    destruct k; [done|]. cbn in H. injection H as <-. unfold balance. cbn. by rewrite lookup_delete.
  - injection H as <-. left. unfold balance at 1. cbn. by rewrite lookup_insert.
Qed.
Lemma debit_kept s k w a s' : token_debit cfg s k w a = Some s' -> kept s -> kept s'.
Proof.
  intros H K. pose proof H as E. apply debit_same in E as [E _]. apply (kept_parts s); [by rewrite E|by rewrite E| |done].
  intros x. destruct (decide (x = w)) as [->|].
  - apply debit_bal in H as [H1 [H2|[H2 H3]]]; pose proof (frozen_ge s w); lia.
  - rewrite (debit_other _ _ _ _ _ _ _ H) by done. apply K.
Qed.
Lemma credit_bal s to a s' : token_credit cfg s to a = Some s' -> balance s' to = balance s to + a /\ rs_tr s' = rs_tr s /\ rs_relay s' = rs_relay s.
Proof.
  unfold token_credit. intros H. destruct (_ <? r_ed cfg); [done|]. destruct (_ <? _); [done|]. injection H as <-. split; [|done].
  unfold balance at 1. cbn. by rewrite lookup_insert.
Qed.
Lemma credit_kept s to a s' : token_credit cfg s to a = Some s' -> kept s -> kept s'.
Proof.
  intros H K. pose proof (credit_bal _ _ _ _ H) as (_ & E1 & E2). apply (kept_parts s); [done|done| |done].
  intros x. pose proof (credit_ge _ _ _ _ _ x H). pose proof (proj2 K x). lia.
Qed.
Lemma transfer_kept s k w to a s' : token_transfer cfg s k w to a = Ok s' -> kept s -> kept s' /\ rs_relay s' = rs_relay s /\ rs_tr s' = rs_tr s /\ vested s to + a <= balance s' to.
Proof.
  unfold token_transfer. intros H K. destruct (N.eqb_spec w to) as [->|].
  - destruct (token_debit cfg s k to a) eqn:E; [|done]. destruct (token_credit cfg s to a); [|done]. injection H as <-.
    split; [done|]. split; [done|]. split; [done|]. apply debit_bal in E as [E _]. pose proof (frozen_ge s to). lia.
  - destruct (token_debit cfg s k w a) as [s1|] eqn:E1; [|done]. destruct (token_credit cfg s1 to a) as [s2|] eqn:E2; [|done]. injection H as <-.
    pose proof (credit_bal _ _ _ _ E2) as (B & T & R). pose proof E1 as E. apply debit_same in E as [E _].
    assert (rs_tr s1 = rs_tr s) by (by rewrite E). assert (rs_relay s1 = rs_relay s) by (by rewrite E).
    split; [by eapply credit_kept, debit_kept|]. split; [congruence|]. split; [congruence|].
    rewrite B, (debit_other _ _ _ _ _ _ _ E1) by done. pose proof (proj2 K to). lia.
Qed.
Lemma view_inv s : TrProofs.tr_inv (r_tr cfg) (rs_tr s) (rs_relay s) -> TrProofs.tr_inv (r_tr cfg) (tr_view s) (rs_relay s).
Proof. intros H a. exact (H a). Qed.

Lemma claim_kept s w x : TrModel.do_claim (tr_view s) w (rs_relay s) = Ok x -> kept s -> kept (up_tr_ s x).
Proof.
  intros H [I B]. pose proof (view_inv _ I) as I'.
  assert (I2 : TrProofs.tr_inv (r_tr cfg) x (rs_relay s)).
  { eapply (TrProofs.tr_inv_apply _ (tr_view s) (rs_relay s) (TClaimFor (Some w) w)); [done|exact H]. }
  split; [done|]. intros a. cbn [up_tr_ rs_tr]. change (balance (up_tr_ s x) a) with (balance s a).
  rewrite (TrProofs.claim_eq (r_tr cfg)) in H by apply I'. injection H as <-. unfold vesting_frozen. cbn [tr_freeze]. rewrite TrProofs.put_freeze_eq.
  destruct (decide (a = w)) as [->|]; [|apply B]. destruct (I w) as (_ & _ & Hs & _). pose proof (B w).
  change (t_schedules (tr_view s) w) with (t_schedules (rs_tr s) w). lia.
Qed.

Lemma leaf_kept c o s s' : plain c -> rt_dispatch cfg c o s = Ok s' -> kept s -> kept s'.
Proof.
  intros Hp H K. apply leaf_inv in H as [_ H]; [|done]. destruct c as [c|c|c|c|c|c|c|c| | | | | | |]; try done; try (by destruct H as (x & _ & ->)).
  - destruct c; cbn [cap_dispatch] in H; try done; apply lift_ok in H as (x & _ & E); by injection E as <-.
  - destruct c as [|to sch|w l|w]; cbn [time_dispatch] in H; try done; apply lift_ok in H as (x & Hx & E).
    + injection E as <-. by eapply claim_kept.
    + destruct (match sc_total sch with Some a => _ | None => _ end) as [s1|] eqn:Em; [|done]. cbn [is_ok] in Hx. injection E as <-.
      destruct K as [I B]. pose proof (view_inv _ I) as I'.
      assert (I2 : TrProofs.tr_inv (r_tr cfg) x (rs_relay s)).
      { eapply (TrProofs.tr_inv_apply _ (tr_view s) (rs_relay s) (TTransfer true (o_who o) to sch)); [done|exact Hx]. }
      apply TrProofs.transfer_ok in Hx as (Hv & _ & _ & _ & _ & _ & _ & Hf & _); [|apply I'].
      apply TrProofs.arithmetic_lemma with (t := 0) in Hv as (_ & _ & _ & _ & _ & Ht). rewrite Ht in Em.
      apply transfer_kept in Em as (K1 & R1 & T1 & Hto); [|done].
      split; [cbn [up_tr_ rs_tr rs_relay]; by rewrite R1|]. intros a. cbn [up_tr_ rs_tr]. change (balance (up_tr_ s1 x) a) with (balance s1 a).
      unfold vesting_frozen. rewrite Hf, TrProofs.put_freeze_eq. destruct (decide (a = to)) as [->|].
      * destruct (I to) as (_ & _ & Hs & _). change (t_schedules (tr_view s) to) with (t_schedules (rs_tr s) to). unfold vesting_frozen in *. lia.
      * pose proof (proj2 K1 a) as Ha. rewrite T1 in Ha. exact Ha.
    + injection E as <-. by eapply claim_kept.
  - destruct c; cbn [bal_dispatch] in H; by apply transfer_kept in H as [H _].
  - rewrite H. exact K.
  - by rewrite H.
Qed.
Lemma gov_kept c s s' : gov_apply cfg s c = Ok s' -> kept s -> kept s'.
Proof.
  intros H K. destruct c as [k n|r c|n|who l]; cbn [gov_apply] in H; apply lift_ok in H as (x & H & E); injection E as <-; try done.
  destruct K as [I B]. pose proof (view_inv _ I) as I'.
  split; [eapply (TrProofs.tr_inv_apply _ (tr_view s) (rs_relay s) (TUpdate true who l)); [done|exact H]|].
  intros a. change (balance (up_tr_ s x) a) with (balance s a). cbn [up_tr_ rs_tr].
  apply TrProofs.update_ok in H as (_ & _ & _ & Hb & _ & Hf & _). unfold vesting_frozen. rewrite Hf, TrProofs.put_freeze_eq.
  destruct (decide (a = who)) as [->|]; [|apply B]. destruct l; [cbn; apply N.le_0_l|]. by apply Hb.
Qed.
Lemma kept_step x s : (forall r, x = SBlock r -> rs_relay s <= r) -> kept s -> kept (rt_step cfg s x).
Proof.
  intros Hr. destruct x as [r|t|p|c].
  - intros [I B]. split; [|done]. cbn [rt_step next_block rs_tr rs_relay]. eapply TrProofs.tr_inv_later; [|done]. by apply Hr.
  - apply (step_rel cfg (fun s s' => kept s -> kept s')); eauto using debit_kept, leaf_kept; done.
  - apply (step_rel cfg (fun s s' => kept s -> kept s')); eauto using debit_kept, leaf_kept; done.
  - apply (step_rel cfg (fun s s' => kept s -> kept s')); eauto using debit_kept, leaf_kept, gov_kept; done.
Qed.
Lemma kept_run h : forall s, relays_from (rs_relay s) h -> kept s -> kept (rt_run cfg s h).
Proof.
  induction h as [|x h IH]; intros s H K; [done|]. change (rt_run cfg s (x :: h)) with (rt_run cfg (rt_step cfg s x) h).
  apply IH; [|apply kept_step; [intros r E; subst x; exact (proj1 H)|done]].
  destruct x as [r|t|p|c]; [exact (proj2 H)|..]; match goal with |- relays_from (rs_relay (rt_step _ _ ?x)) _ => destruct (step_relay cfg x s) as [-> _]; [done|exact H] end.
Qed.
Lemma genesis_frozen items : forall st st', genesis_build (r_tr cfg) st items = Ok st' -> (forall a, vesting_frozen st a <= t_balance st a) ->
  (forall a, vesting_frozen st' a <= t_balance st' a) /\ tr_bal st' = tr_bal st.
Proof.
  induction items as [|[who s] items IH]; intros st st' H B; cbn [genesis_build] in H; [by injection H as <-|].
  destruct (_ <=? t_max _); [|done]. destruct (fold_valid _ _ _) as [total|]; [|done].
  destruct (N.leb_spec total (t_balance st who)); [|done]. apply IH in H as [H1 H2]; [done|].
  intros a. change (t_balance (t_set_sched (t_set_freeze st who total) who (t_schedules st who ++ [s])) a) with (t_balance st a).
  change (vesting_frozen (t_set_sched (t_set_freeze st who total) who (t_schedules st who ++ [s])) a) with (default 0 (TrProofs.put_freeze (tr_freeze st) who total !! a)).
  rewrite TrProofs.put_freeze_eq. destruct (decide (a = who)) as [->|]; [done|]. apply B.
Qed.
Lemma vesting_lemma b mm items v h a t : genesis_build (r_tr cfg) (tr_initial b) items = Ok v -> relays_from 0 h ->
  let s := rt_run cfg (rt_start b mm v) h in
  rs_relay s <= t -> unreleased_of (rs_tr s) a t <= vested s a /\ vested s a <= balance s a.
Proof.
  intros Hg Hh s Ht.
  assert (K : kept s).
  { apply kept_run; [done|]. split; [exact (TrProofs.reach_inv _ _ _ _ [] Hg I)|]. intros x.
    apply genesis_frozen in Hg as [H E]; [|intros y; unfold vesting_frozen, tr_initial; cbn; rewrite lookup_empty; apply N.le_0_l].
    specialize (H x). unfold t_balance in H. rewrite E in H. exact H. }
  destruct K as [I B]. split; [|apply B]. exact (proj1 (proj2 (proj2 (TrProofs.tr_inv_later _ _ _ _ Ht I a)))).
Qed.
End rt.

(** ** C109 *)
Lemma projection_lemma cfg b mm v h : relays_from 0 h ->
  let s := rt_run cfg (rt_start b mm v) h in
  (exists hm, rs_msa s = msa_run (r_msa cfg) msa_genesis hm /\ blocks_from 0 hm /\ last_block 0 hm <= rs_block s
     /\ schemas_from 0 hm /\ last_schema 0 hm <= ScModel.sc_count (rs_sc s)
     /\ (all_plain h -> all_top hm))
  /\ (exists hs, rs_sc s = sc_run (r_sc cfg) (sc_genesis mm) hs)
  /\ (exists hh, rs_h s = h_run (r_h cfg) h_genesis hh /\ Forall (fun x => he_block (hx_env x) <= rs_block s) hh
     /\ (all_plain h -> Forall (fun x => hx_top x = true) hh))
  /\ (exists ht, rs_st s = st_run (r_st cfg) st_genesis ht /\ StSpec.envs_ok ht)
  /\ (exists hg, rs_mg s = mg_run (r_mg cfg) mg_genesis hg /\ mg_block (rs_mg s) = rs_block s)
  /\ (exists hc, rs_cap s = cap_run (r_cap cfg) cap_genesis hc /\ no_bare_replenish hc)
  /\ (exists hr, rs_tr s = tr_run (r_tr cfg) v hr /\ times_from 0 hr /\ last_time 0 hr <= rs_relay s).
Proof.
  intros Hh s. pose proof (run_micro cfg h (rt_start b mm v) Hh) as H. fold s in H.
  assert (Dec : {all_plain h} + {~ all_plain h}).
  { assert (D : forall x, Decision (match call_of x with Some c => plain c | None => True end)); [|exact (decide (Forall _ h))].
    intros x. destruct (call_of x) as [c|]; [|by left]. destruct c; first [by left|by right; intros []]. }
  split; [|split; [|split; [|split; [|split; [|split]]]]].
  - destruct Dec as [F|F].
    + destruct (steps_msa _ _ _ _ (run_micro_top cfg h (rt_start b mm v) Hh F)) as (hm & H1 & H2 & H3 & H4 & H5 & H6). exists hm. do 5 (split; [done|]). intros _. by apply H6.
    + destruct (steps_msa _ _ _ _ H) as (hm & H1 & H2 & H3 & H4 & H5 & H6). exists hm. do 5 (split; [done|]). by intros ?.
  - destruct (steps_sc _ _ _ _ H) as [_ [hs E]]. by exists hs.
  - destruct Dec as [F|F].
    + destruct (steps_h _ _ _ _ (run_micro_top cfg h (rt_start b mm v) Hh F)) as (hh & E & Fh). exists hh. split; [done|].
      split; [|intros _]; (eapply Forall_impl; [exact Fh|]); cbn; intros x [[_ ?] ?]; done.
    + destruct (steps_h _ _ _ _ H) as (hh & E & Fh). exists hh. split; [done|]. split; [|by intros ?].
      eapply Forall_impl; [exact Fh|]. cbn. intros x [[_ ?] ?]; done.
  - apply (steps_st _ _ _ _ H). by exists [].
  - destruct (steps_mg _ _ _ _ H eq_refl) as [E [hg E']]. by exists hg.
  - exact (steps_cap _ _ _ _ H).
  - exact (steps_tr _ _ _ _ H).
Qed.

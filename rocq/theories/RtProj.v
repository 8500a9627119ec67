(** The parts of the runtime's state are states of the pallets. *)
From Verif Require Import Prelude CommonTypes SigModel MsaModel CapModel TrModel StModel HModel ScModel MgModel FeeModel RtModel.
From Verif Require Import RtSpec RtProofs.
From Verif Require MsaSpec MsaProofs MsaDelegProofs CapSpec TrSpec StSpec StPayloadProofs ScSpec ScFinal HSpec MgProofs.

Section rel.
Variable cfg : RtCfg.
Variable R : RtState -> RtState -> Prop.
Hypothesis Hr : forall s, R s s.
Hypothesis Ht : forall a b c, R a b -> R b c -> R a c.
Hypothesis Hnonce : forall s n, R s (up_nonce_ s n).
Hypothesis Hspend : forall s m f x, cap_spend (rs_cap s) m f = Ok x -> R s (up_cap_ s x).
Hypothesis Hdebit : forall s k w a x, token_debit cfg s k w a = Some x -> R s x.

Lemma check_rel st who n p st1 : check_nonce st who n p = Ok st1 -> R st st1.
Proof.
  unfold check_nonce. intros H. destruct (_ <=? n); [|done]. destruct (n <=? _); [|done].
  destruct (_ || _); injection H as <-; [apply Hnonce|apply Hr].
Qed.
Lemma token_fee_rel st who c n tip st1 : withdraw_token_fee cfg st who c n tip = Ok st1 -> R st st1.
Proof.
  unfold withdraw_token_fee. intros H. destruct (_ =? 0); [injection H as <-; apply Hr|].
  destruct (token_debit _ _ _ _ _) eqn:E; [|done]. injection H as <-. by eapply Hdebit.
Qed.
Lemma capacity_fee_rel st who l n st1 : withdraw_capacity_fee cfg st who l n = Ok st1 -> R st st1.
Proof.
  unfold withdraw_capacity_fee. intros H. destruct (capacity_charge _ _); [|done]. destruct (_ <=? _); [|done].
  destruct (ms_keys _ !! _); [|done]. destruct (cap_spend _ _ _) eqn:E; [|done]. injection H as <-. by eapply Hspend.
Qed.
Lemma fee_rel st who c n tip st1 : withdraw_fee cfg st who c n tip = Ok st1 -> R st st1.
Proof. destruct c; cbn [withdraw_fee]; first [apply token_fee_rel|apply capacity_fee_rel]. Qed.

Lemma tree_rel c : (forall c' o s s', c' ∈ leaves c -> plain c' -> rt_dispatch cfg c' o s = Ok s' -> R s s') ->
  forall o st st', rt_dispatch cfg c o st = Ok st' -> R st st'.
Proof.
  intros Hl o st st' H. apply dispatch_leaves in H. induction H as [|x y z (c' & o' & H1 & H2 & H3) _ IH]; [apply Hr|].
  eapply Ht; [by eapply Hl|exact IH].
Qed.
Lemma run_call_rel c : (forall c' o s s', c' ∈ leaves c -> plain c' -> rt_dispatch cfg c' o s = Ok s' -> R s s') ->
  forall o st st' r, run_call cfg c o st = (st', r) -> R st st'.
Proof.
  intros Hl o st st' r. unfold run_call. destruct (rt_dispatch _ _ _ _) eqn:E; intros [= <- _]; [|apply Hr]. by eapply tree_rel.
Qed.
Lemma tx_rel t : (forall c o s s', c ∈ leaves (tx_call t) -> plain c -> rt_dispatch cfg c o s = Ok s' -> R s s') ->
  forall st st' r, tx_apply cfg st t = Ok (st', r) -> R st st'.
Proof.
  intros Hl st st' r. unfold tx_apply. destruct (check_nonce _ _ _ _) as [s1|] eqn:E1; [|done].
  destruct (withdraw_fee _ _ _ _ _ _) as [s2|] eqn:E2; [|done]. destruct (free_use _ _ _); [|done]. intros H.
  eapply Ht; [by eapply check_rel|]. eapply Ht; [by eapply fee_rel|]. eapply (run_call_rel _ Hl). by injection H.
Qed.
Lemma passkey_rel p : (forall c o s s', c ∈ leaves (pk_call p) -> plain c -> rt_dispatch cfg c o s = Ok s' -> R s s') ->
  forall st st' r, passkey_apply cfg st p = Ok (st', r) -> R st st'.
Proof.
  intros Hl st st' r. unfold passkey_apply. destruct (negb _); [|done]. destruct (passkey_filter _); [|done]. destruct (r_verify _ _ _ _); [|done].
  destruct (check_nonce _ _ _ _) as [s1|] eqn:E1; [|done].
  destruct (withdraw_token_fee _ _ _ _ _ _) as [s2|] eqn:E2; [|done]. intros H.
  eapply Ht; [by eapply check_rel|]. eapply Ht; [by eapply token_fee_rel|]. eapply (run_call_rel _ Hl). by injection H.
Qed.
Lemma step_rel x :
  (forall c o s s', c ∈ calls_of x -> plain c -> rt_dispatch cfg c o s = Ok s' -> R s s') ->
  (forall r s, x = SBlock r -> R s (next_block s r)) ->
  (forall c s s', x = SGov c -> gov_apply cfg s c = Ok s' -> R s s') ->
  forall st, R st (rt_step cfg st x).
Proof.
  intros Hl Hb Hg st. destruct x as [r|t|p|c]; cbn [rt_step].
  - by apply Hb.
  - destruct (tx_apply _ _ _) as [[s1 r]|] eqn:E; [|apply Hr]. eapply (tx_rel t); [exact Hl|exact E].
  - destruct (passkey_apply _ _ _) as [[s1 r]|] eqn:E; [|apply Hr]. eapply (passkey_rel p); [exact Hl|exact E].
  - destruct (gov_apply _ _ _) eqn:E; [|apply Hr]. by eapply Hg.
Qed.
End rel.

Lemma rt_run_app cfg h1 h2 st : rt_run cfg st (h1 ++ h2) = rt_run cfg (rt_run cfg st h1) h2.
Proof. apply fold_left_app. Qed.
Lemma rt_run_rel cfg (R : RtState -> RtState -> Prop) (Q : RtStep -> Prop) :
  (forall s, R s s) -> (forall a b c, R a b -> R b c -> R a c) -> (forall s x, Q x -> R s (rt_step cfg s x)) ->
  forall h st, Forall Q h -> R st (rt_run cfg st h).
Proof.
  intros Hr Ht Hs. induction h as [|x h IH]; intros st F; [apply Hr|]. inversion F; subst.
  eapply Ht; [by apply Hs|]. by apply IH.
Qed.

(** What the fee payment does not touch. *)
Lemma debit_same cfg s k w a x : token_debit cfg s k w a = Some x ->
  x = up_nonce_ (up_bal_ s (rs_bal x)) (rs_nonce x) /\ (rs_nonce x = rs_nonce s \/ rs_nonce x = delete w (rs_nonce s)).
Proof.
  unfold token_debit. intros H. destruct (_ <? a); [done|]. destruct (_ <? frozen _ _); [done|].
  destruct (_ <? r_ed cfg); [destruct (_ || _); [done|]|]; injection H as <-; (split; [done|]); [by right|by left].
Qed.
Lemma transfer_same cfg s k a b n x : token_transfer cfg s k a b n = Ok x ->
  x = up_nonce_ (up_bal_ s (rs_bal x)) (rs_nonce x) /\ (rs_nonce x = rs_nonce s \/ rs_nonce x = delete a (rs_nonce s)).
Proof.
  unfold token_transfer. intros H. destruct (_ =? _); [destruct (token_debit cfg s k a n), (token_credit cfg s b n); try done; injection H as <-; destruct s; by auto|].
  destruct (token_debit _ _ _ _ _) as [s1|] eqn:E; [|done]. apply debit_same in E as [E1 E2].
  unfold token_credit in H. destruct (_ <? r_ed _); [done|]. destruct (_ <? _); [done|]. injection H as <-.
  split; [rewrite E1 at 1; done|done].
Qed.

Section proj.
Variable cfg : RtCfg.

(** All components but balances and nonces. *)
Definition rest (s : RtState) := up_nonce_ (up_bal_ s ∅) ∅.
Lemma bal_dispatch_same s who c s' : bal_dispatch cfg s who c = Ok s' -> rest s' = rest s.
Proof. destruct c; cbn [bal_dispatch]; intros H; apply transfer_same in H as [-> _]; done. Qed.

Lemma leaf_inv c o s s' : plain c -> rt_dispatch cfg c o s = Ok s' ->
  base_filter (r_mainnet cfg) c = true /\
  match c with
  | RMsa c => exists x, msa_dispatch (r_msa cfg) (env_msa s) (rs_msa s) (Signed (o_who o)) c = Ok x /\ s' = up_msa_ s x
  | RHandles c => exists x, h_dispatch (r_h cfg) (env_h s) (rs_h s) (Some (o_who o)) c = Ok x /\ s' = up_h_ s x
  | RStorage c => exists x, st_dispatch (r_st cfg) (env_st s) (rs_st s) (Signed (o_who o)) c = Ok x /\ s' = up_st_ s x
  | RMessages c => exists x, mg_dispatch (r_mg cfg) (env_mg s) (rs_mg s) (Signed (o_who o)) c = Ok x /\ s' = up_mg_ s x
  | RSchemas c => exists x, sc_dispatch (r_sc cfg) (rs_sc s) (ScSigned (o_who o)) (r_council cfg s (o_who o)) c = Ok x /\ s' = up_sc_ s x
  | RCapacity c => cap_dispatch cfg s (o_who o) c = Ok s'
  | RTime c => time_dispatch cfg s (o_who o) c = Ok s'
  | RBalances c => bal_dispatch cfg s (o_who o) c = Ok s'
  | RAddProxy d t => s' = up_proxies_ s (rs_proxies s')
  | ROther _ => s' = s
  | _ => False
  end.
Proof.
  intros Hp H. pose proof (dispatch_filter _ _ _ _ _ H) as [Hb _]. split; [done|].
  destruct c; cbn [rt_dispatch] in H; destruct (base_filter _ _ && _); try done;
    try (apply lift_ok in H as (x & H & E); injection E as <-; by exists x).
  - by injection H as <-.
  - by injection H as <-.
Qed.

(** ** Small steps: one call of one pallet. [top]: MSA and handle calls were
    looked at by the signed extensions. *)
Inductive micro (top : bool) (s : RtState) : RtState -> Prop :=
| MMsa o c x :
    (top = true -> is_ok (msa_validate (env_msa s) (rs_msa s) o c) = true) ->
    msa_dispatch (r_msa cfg) (env_msa s) (rs_msa s) o c = Ok x -> micro top s (up_msa_ s x)
| MH who c x :
    (top = true -> extension_ok (env_h s) (rs_h s) who c = true) ->
    h_dispatch (r_h cfg) (env_h s) (rs_h s) (Some who) c = Ok x -> micro top s (up_h_ s x)
| MSt who c x : st_dispatch (r_st cfg) (env_st s) (rs_st s) (Signed who) c = Ok x -> micro top s (up_st_ s x)
| MMg who c x : mg_dispatch (r_mg cfg) (env_mg s) (rs_mg s) (Signed who) c = Ok x -> micro top s (up_mg_ s x)
| MSc o ok c x : sc_dispatch (r_sc cfg) (rs_sc s) o ok c = Ok x -> micro top s (up_sc_ s x)
| MCap op x :
    match op with OpReplenishAll _ => False | _ => True end ->
    cap_apply (r_cap cfg) (cap_view s) op = Ok x -> micro top s (up_cap_ s x)
| MSpend m f x : cap_spend (rs_cap s) m f = Ok x -> micro top s (up_cap_ s x)
| MTr op x : tr_apply (r_tr cfg) (tr_view s) (rs_relay s) op = Ok x -> micro top s (up_tr_ s x)
| MRest n b p : micro top s (up_proxies_ (up_nonce_ (up_bal_ s b) n) p)
| MBlock r : rs_relay s <= r -> micro top s (next_block s r).

Notation steps top := (rtc (micro top)).

Lemma steps_rest top s b n : steps top s (up_nonce_ (up_bal_ s b) n).
Proof. apply rtc_once. pose proof (MRest top s n b (rs_proxies s)) as H. exact H. Qed.
Lemma steps_nonce top s n : steps top s (up_nonce_ s n).
Proof. pose proof (steps_rest top s (rs_bal s) n) as H. exact H. Qed.
Lemma up_eta s : up_proxies_ (up_nonce_ (up_bal_ s (rs_bal s)) (rs_nonce s)) (rs_proxies s) = s.
Proof. by destruct s. Qed.
Lemma steps_debit top s k w a x : token_debit cfg s k w a = Some x -> steps top s x.
Proof. intros H. apply debit_same in H as [-> _]. apply steps_rest. Qed.
Lemma steps_spend top s m f x : cap_spend (rs_cap s) m f = Ok x -> steps top s (up_cap_ s x).
Proof. intros H. by eapply rtc_once, MSpend. Qed.
Lemma steps_trans top a b c : steps top a b -> steps top b c -> steps top a c.
Proof. intros. by etrans. Qed.
Lemma steps_refl top a : steps top a a. Proof. done. Qed.

Lemma leaf_steps top c o s s' : plain c -> (top = true -> is_ok (free_use s (o_who o) c) = true) ->
  rt_dispatch cfg c o s = Ok s' -> steps top s s'.
Proof.
  intros Hp Hf H. apply leaf_inv in H as [_ H]; [|done]. destruct c as [c|c|c|c|c|c|c|c| | | | | | |]; try done.
  - destruct H as (x & H & ->). eapply rtc_once, MMsa; [|exact H]. intros E. specialize (Hf E). cbn [free_use] in Hf. by destruct (msa_validate _ _ _ _).
  - destruct H as (x & H & ->). eapply rtc_once, MH; [|exact H]. intros E. specialize (Hf E). cbn [free_use] in Hf. by destruct (extension_ok _ _ _ _).
  - destruct H as (x & H & ->). by eapply rtc_once, MSt.
  - destruct H as (x & H & ->). by eapply rtc_once, MMg.
  - destruct H as (x & H & ->). by eapply rtc_once, MSc.
  - destruct c as [t a|t a| |n]; cbn [cap_dispatch] in H; [| | |done]; apply lift_ok in H as (x & H & E); injection E as <-.
    + by eapply rtc_once, (MCap top s (OpStake _ (o_who o) t a)).
    + by eapply rtc_once, (MCap top s (OpUnstake (o_who o) t a)).
    + by eapply rtc_once, (MCap top s (OpWithdraw (o_who o))).
  - destruct c as [|to sch|w l|w]; cbn [time_dispatch] in H; [| |done|].
    + apply lift_ok in H as (x & H & E); injection E as <-. by eapply rtc_once, (MTr top s (TClaimFor (Some (o_who o)) (o_who o))).
    + apply lift_ok in H as (x & H & E).
      destruct (match sc_total sch with Some a => _ | None => _ end) as [s1|] eqn:Em; [|done]. injection E as <-.
      destruct (sc_total sch) as [a|]; [|done]. apply transfer_same in Em as [-> _].
      eapply rtc_l; [by eapply (MTr top s (TTransfer (is_ok _) (o_who o) to sch))|].
      apply (steps_rest top (up_tr_ s x)).
    + apply lift_ok in H as (x & H & E); injection E as <-. by eapply rtc_once, (MTr top s (TClaimFor (Some (o_who o)) w)).
  - destruct c; cbn [bal_dispatch] in H; apply transfer_same in H as [-> _]; apply steps_rest.
  - rewrite H. apply rtc_once. pose proof (MRest top s (rs_nonce s) (rs_bal s) (rs_proxies s')) as E. exact E.
  - subst. done.
Qed.

Lemma gov_steps top c s s' : gov_apply cfg s c = Ok s' -> steps top s s'.
Proof.
  intros H. destruct c; cbn [gov_apply] in H; apply lift_ok in H as (x & H & E); injection E as <-; apply rtc_once.
  - by eapply (MMsa top s Gov).
  - by eapply MSc.
  - by eapply (MCap top s (OpSetEpochLength true n)).
  - by eapply (MTr top s (TUpdate true who l)).
Qed.

(** Every step of the chain is made of small steps; of checked ones if its call
    is not a wrapper. *)
Lemma step_micro x s : (forall r, x = SBlock r -> rs_relay s <= r) -> steps false s (rt_step cfg s x).
Proof.
  intros Hr. destruct x as [r|t|p|c]; [apply rtc_once; apply MBlock; by apply Hr|..];
  apply (step_rel cfg (steps false)); eauto using steps_refl, steps_trans, steps_nonce, steps_spend, steps_debit, gov_steps;
    try done; intros; eapply leaf_steps; eauto; done.
Qed.
Lemma step_micro_top x s : (forall r, x = SBlock r -> rs_relay s <= r) -> match call_of x with Some c => plain c | None => True end ->
  steps true s (rt_step cfg s x).
Proof.
  intros Hr Hp. destruct x as [r|t|p|c]; cbn [rt_step call_of] in *.
  - apply rtc_once; apply MBlock; by apply Hr.
  - unfold tx_apply. destruct (check_nonce _ _ _ _) as [s1|] eqn:E1; [|done].
    destruct (withdraw_fee _ _ _ _ _ _) as [s2|] eqn:E2; [|done]. destruct (free_use _ _ _) eqn:E3; [|done].
    etrans; [eapply (check_rel (steps true)); eauto using steps_refl, steps_nonce|].
    etrans; [eapply (fee_rel cfg (steps true)); eauto using steps_refl, steps_spend, steps_debit|].
    unfold run_call. destruct (rt_dispatch _ _ _ _) eqn:E4; [|done]. eapply leaf_steps; [done| |exact E4]. intros _. cbn [o_who signed]. by rewrite E3.
  - unfold passkey_apply. destruct (negb _); [|done]. destruct (passkey_filter _) eqn:Ef; [|done]. destruct (r_verify _ _ _ _); [|done].
    destruct (check_nonce _ _ _ _) as [s1|] eqn:E1; [|done].
    destruct (withdraw_token_fee _ _ _ _ _ _) as [s2|] eqn:E2; [|done].
    etrans; [eapply (check_rel (steps true)); eauto using steps_refl, steps_nonce|].
    etrans; [eapply (token_fee_rel cfg (steps true)); eauto using steps_refl, steps_debit|].
    unfold run_call. destruct (rt_dispatch _ _ _ _) eqn:E4; [|done]. eapply leaf_steps; [done| |exact E4]. intros _.
    by destruct (pk_call p).
  - destruct (gov_apply _ _ _) eqn:E; [|done]. by eapply gov_steps.
Qed.

Lemma micro_relay top s s' : micro top s s' -> rs_relay s <= rs_relay s' /\ rs_block s <= rs_block s'.
Proof. intros H. destruct H; cbn; lia. Qed.
Lemma steps_relay top s s' : steps top s s' -> rs_relay s <= rs_relay s' /\ rs_block s <= rs_block s'.
Proof. induction 1 as [|x y z H _ [IH1 IH2]]; [lia|]. apply micro_relay in H as [H1 H2]. lia. Qed.

Lemma leaf_relay c o s s' : plain c -> rt_dispatch cfg c o s = Ok s' -> rs_relay s' = rs_relay s /\ rs_block s' = rs_block s.
Proof.
  intros Hp H. apply leaf_inv in H as [_ H]; [|done]. destruct c as [c|c|c|c|c|c|c|c| | | | | | |]; try done;
    try (by destruct H as (x & _ & ->)).
  - destruct c; cbn [cap_dispatch] in H; try done; apply lift_ok in H as (x & _ & E); by injection E as <-.
  - destruct c as [|to sch|w l|w]; cbn [time_dispatch] in H; try done; apply lift_ok in H as (x & _ & E); [by injection E as <-| |by injection E as <-].
    destruct (match sc_total sch with Some a => _ | None => _ end) as [s1|] eqn:Em; [|done]. injection E as <-.
    destruct (sc_total sch) as [a|]; [|done]. by apply transfer_same in Em as [-> _].
  - destruct c; cbn [bal_dispatch] in H; by apply transfer_same in H as [-> _].
  - by rewrite H.
  - by subst.
Qed.
Lemma step_relay x s : (forall r, x <> SBlock r) -> rs_relay (rt_step cfg s x) = rs_relay s /\ rs_block (rt_step cfg s x) = rs_block s.
Proof.
  intros Hx. apply (step_rel cfg (fun s s' => rs_relay s' = rs_relay s /\ rs_block s' = rs_block s)); try done.
  - intros a b c [H1 H2] [H3 H4]. by rewrite H3, H4.
  - intros s0 k w a x0 H. by apply debit_same in H as [-> _].
  - intros c o s0 s' _ Hp H. by eapply leaf_relay.
  - intros r s0 E. by apply Hx in E.
  - intros c s0 s' _ H. destruct c; cbn [gov_apply] in H; apply lift_ok in H as (y & _ & E); by injection E as <-.
Qed.

Lemma run_micro h : forall s, relays_from (rs_relay s) h -> steps false s (rt_run cfg s h).
Proof.
  induction h as [|x h IH]; intros s H; [done|]. change (rt_run cfg s (x :: h)) with (rt_run cfg (rt_step cfg s x) h).
  apply steps_trans with (rt_step cfg s x); [apply step_micro; intros r E; subst x; exact (proj1 H)|]. apply IH.
  destruct x as [r|t|p|c]; [exact (proj2 H)|..]; match goal with |- relays_from (rs_relay (rt_step _ _ ?x)) _ => destruct (step_relay x s) as [-> _]; [done|exact H] end.
Qed.
Lemma run_micro_top h : forall s, relays_from (rs_relay s) h ->
  Forall (fun x => match call_of x with Some c => plain c | None => True end) h -> steps true s (rt_run cfg s h).
Proof.
  induction h as [|x h IH]; intros s H F; [done|]. inversion F; subst. change (rt_run cfg s (x :: h)) with (rt_run cfg (rt_step cfg s x) h).
  apply steps_trans with (rt_step cfg s x); [apply step_micro_top; [intros r E; subst x; exact (proj1 H)|done]|]. apply IH; [|done].
  destruct x as [r|t|p|c]; [exact (proj2 H)|..]; match goal with |- relays_from (rs_relay (rt_step _ _ ?x)) _ => destruct (step_relay x s) as [-> _]; [done|exact H] end.
Qed.

(** ** The projections *)
Lemma sc_apply_count s x s' : sc_apply (r_sc cfg) s x = Ok s' -> ScModel.sc_count s <= ScModel.sc_count s'.
Proof.
  intros H. destruct (ScSpec.creates x) as [((r, key), b)|] eqn:Ec.
  - rewrite (ScFinal.dispatch_create _ _ _ _ _ _ Ec) in H. destruct (args_ok _ _) eqn:Ea; [|done]. destruct b; [|done].
    apply (ScFinal.create_ok (r_sc cfg) s key r s') in H as (_ & _ & _ & _ & _ & on & _ & ->). cbn. lia.
  - apply ScFinal.dispatch_other in H as [(n & _ & _ & _ & _ & -> & _)|[(id & p & n & _ & _ & _ & _ & _ & _ & _ & _ & ->)|(who & c & _ & ->)]]; try done; cbn; lia.
Qed.
Lemma steps_sc top s s' : steps top s s' -> ScModel.sc_count (rs_sc s) <= ScModel.sc_count (rs_sc s') /\ exists h, rs_sc s' = sc_run (r_sc cfg) (rs_sc s) h.
Proof.
  induction 1 as [s|a b c H _ [IH1 [h IH2]]]; [split; [lia|by exists []]|].
  destruct H as [| | | |o ok c0 x H| | | | |]; try (by split; [|exists h]).
  cbn [rs_sc up_sc_] in *. pose proof (sc_apply_count (rs_sc a) {| sx_origin := o; sx_council_ok := ok; sx_call := c0 |} x H). split; [lia|].
  exists ({| sx_origin := o; sx_council_ok := ok; sx_call := c0 |} :: h). rewrite IH2. cbn. unfold sc_step, sc_apply. cbn. by rewrite H.
Qed.

Lemma schemas_from_le b b' h : b' <= b -> MsaSpec.schemas_from b h -> MsaSpec.schemas_from b' h.
Proof. destruct h as [|x h]; [done|]. cbn. intros ? [? ?]. split; [lia|done]. Qed.

(** The MSA part: the projected calls, with their environments in order. *)
Lemma steps_msa top s s' : steps top s s' -> exists h,
  rs_msa s' = msa_run (r_msa cfg) (rs_msa s) h /\ MsaSpec.blocks_from (rs_block s) h /\ MsaSpec.last_block (rs_block s) h <= rs_block s'
  /\ MsaSpec.schemas_from (ScModel.sc_count (rs_sc s)) h /\ MsaSpec.last_schema (ScModel.sc_count (rs_sc s)) h <= ScModel.sc_count (rs_sc s')
  /\ (top = true -> MsaSpec.all_top h).
Proof.
  induction 1 as [s|a b c H Hs (h & IH1 & IH2 & IH3 & IH4 & IH5 & IH6)].
  { exists []. cbn. split; [done|]. split; [done|]. split; [lia|]. split; [done|]. split; [lia|constructor]. }
  assert (Hb : rs_block a <= rs_block b) by (by apply micro_relay in H as [_ ?]).
  assert (Hc : ScModel.sc_count (rs_sc a) <= ScModel.sc_count (rs_sc b)) by (apply (steps_sc top); by apply rtc_once).
  assert (same : rs_msa b = rs_msa a -> exists h, rs_msa c = msa_run (r_msa cfg) (rs_msa a) h /\ MsaSpec.blocks_from (rs_block a) h
    /\ MsaSpec.last_block (rs_block a) h <= rs_block c /\ MsaSpec.schemas_from (ScModel.sc_count (rs_sc a)) h
    /\ MsaSpec.last_schema (ScModel.sc_count (rs_sc a)) h <= ScModel.sc_count (rs_sc c) /\ (top = true -> MsaSpec.all_top h)).
  { intros E. exists h. rewrite <- E. split; [done|]. split; [by eapply MsaDelegProofs.blocks_from_le|].
    pose proof (steps_relay _ _ _ Hs) as [_ ?]. pose proof (steps_sc _ _ _ Hs) as [? _].
    split; [destruct h; cbn in *; lia|]. split; [by eapply schemas_from_le|]. split; [destruct h; cbn in *; lia|done]. }
  destruct H as [o c0 x Hv H| | | | | | | | |]; try (by apply same).
  exists ({| s_env := env_msa a; s_origin := o; s_call := c0; s_top := top |} :: h). cbn [up_msa_ rs_msa rs_block rs_sc] in *.
  split. { rewrite IH1. cbn [msa_run]. f_equal. unfold msa_step, msa_tx, msa_call. cbn [s_top s_env s_origin s_call].
    destruct top; [specialize (Hv eq_refl); destruct (msa_validate _ _ _ _); [|done]|]; by rewrite H. }
  cbn. split; [split; [lia|done]|]. split; [done|]. split; [split; [lia|done]|]. split; [done|].
  intros E. constructor; [done|by apply IH6].
Qed.

Lemma steps_h top s s' : steps top s s' -> exists h, rs_h s' = h_run (r_h cfg) (rs_h s) h
  /\ Forall (fun x => rs_block s <= he_block (hx_env x) <= rs_block s' /\ hx_top x = top) h.
Proof.
  induction 1 as [s|a b c H Hs (h & IH1 & IH2)]; [by exists []|].
  pose proof (micro_relay _ _ _ H) as [_ Hb]. pose proof (steps_relay _ _ _ Hs) as [_ Hb'].
  assert (F : Forall (fun x => rs_block a <= he_block (hx_env x) <= rs_block c /\ hx_top x = top) h).
  { eapply Forall_impl; [exact IH2|]. cbn. intros x [? ?]. split; [lia|done]. }
  destruct H as [|who c0 x Hv H| | | | | | | |]; try (by exists h).
  exists ({| hx_env := env_h a; hx_top := top; hx_origin := Some who; hx_call := c0 |} :: h). cbn [up_h_ rs_h rs_block] in *. split.
  - rewrite IH1. cbn [h_run fold_left]. f_equal. unfold h_step, h_apply. cbn [hx_top hx_origin hx_env hx_call].
    destruct top; [rewrite (Hv eq_refl)|]; by rewrite H.
  - constructor; [cbn; split; [lia|done]|done].
Qed.

Lemma steps_st top s s' : steps top s s' -> (exists h, rs_msa s = msa_run (r_msa cfg) msa_genesis h) ->
  exists h, rs_st s' = st_run (r_st cfg) (rs_st s) h /\ StSpec.envs_ok h.
Proof.
  induction 1 as [s|a b c H Hs IH]; intros [hm Hm]; [exists []; split; [done|constructor]|].
  destruct IH as (h & IH1 & IH2).
  { apply rtc_once, steps_msa in H as (h & E & _). exists (hm ++ h). by rewrite MsaProofs.msa_run_app, <- Hm. }
  destruct H as [| |who c0 x H| | | | | | |]; try (by exists h).
  exists ({| x_env := env_st a; x_origin := Signed who; x_call := c0 |} :: h). cbn [up_st_ rs_st] in *. split.
  - rewrite IH1. cbn [st_run fold_left]. f_equal. unfold st_step. cbn. by rewrite H.
  - constructor; [|done]. eapply StPayloadProofs.reachable_env_ok. exact Hm.
Qed.

Lemma mg_dispatch_block env s o c s' : mg_dispatch (r_mg cfg) env s o c = Ok s' -> mg_block s' = mg_block s.
Proof.
  destruct o as [who|]; [|done]. destruct c; cbn [mg_dispatch]; unfold add_ipfs_message, add_onchain_message, add_message, deposit_if;
    intros H; split_all H; try done; by destruct (mg_index s =? 0).
Qed.
Lemma steps_mg top s s' : steps top s s' -> mg_block (rs_mg s) = rs_block s ->
  mg_block (rs_mg s') = rs_block s' /\ exists h, rs_mg s' = mg_run (r_mg cfg) (rs_mg s) h.
Proof.
  induction 1 as [s|a b c H Hs IH]; intros E; [split; [done|by exists []]|].
  destruct H as [| | |who c0 x H| | | | | |r H]; try (by apply IH).
  - destruct IH as [I1 [h I2]]; [cbn; by rewrite (mg_dispatch_block _ _ _ _ _ H)|]. split; [done|].
    exists (Call (env_mg a) (Signed who) c0 :: h). rewrite I2. cbn [mg_run fold_left mg_step]. by rewrite H.
  - destruct IH as [I1 [h I2]]; [cbn; by rewrite E|]. split; [done|]. exists (NextBlock :: h). by rewrite I2.
Qed.

Lemma steps_cap top s s' : steps top s s' -> exists h, rs_cap s' = cap_run (r_cap cfg) (rs_cap s) h /\ CapSpec.no_bare_replenish h.
Proof.
  induction 1 as [s|a b c H Hs (h & IH1 & IH2)]; [exists []; split; [done|constructor]|].
  destruct H as [| | | | |op x Hop H|m f x H| | |r H]; try (by exists h).
  - exists (OpBalances (rs_bal a) :: op :: h). split; [|by repeat constructor]. rewrite IH1. cbn [cap_run fold_left].
    change (cap_step (r_cap cfg) (rs_cap a) (OpBalances (rs_bal a))) with (cap_view a). unfold cap_run. f_equal. unfold cap_step. by rewrite H.
  - exists (OpSpend m f :: h). split; [|by repeat constructor]. rewrite IH1. unfold cap_run. cbn [fold_left]. f_equal. unfold cap_step. cbn [cap_apply]. by rewrite H.
  - exists (OpBlock (rs_block a + 1) :: h). split; [|by repeat constructor]. by rewrite IH1.
Qed.

Lemma steps_tr top s s' : steps top s s' -> exists h, rs_tr s' = tr_run (r_tr cfg) (rs_tr s) h
  /\ TrSpec.times_from (rs_relay s) h /\ TrSpec.last_time (rs_relay s) h <= rs_relay s'.
Proof.
  induction 1 as [s|a b c H Hs (h & IH1 & IH2 & IH3)]; [exists []; split; [done|]; split; [done|cbn; lia]|].
  pose proof (micro_relay _ _ _ H) as [Hr _]. pose proof (steps_relay _ _ _ Hs) as [Hr' _].
  assert (same : rs_tr b = rs_tr a -> exists h, rs_tr c = tr_run (r_tr cfg) (rs_tr a) h
    /\ TrSpec.times_from (rs_relay a) h /\ TrSpec.last_time (rs_relay a) h <= rs_relay c).
  { intros E. exists h. rewrite <- E. split; [done|]. destruct h; cbn in *; [lia|]. destruct IH2. split; [split; [lia|done]|done]. }
  destruct H as [| | | | | | |op x H| |r H]; try (by apply same).
  exists ((rs_relay a, TBalances (rs_bal a)) :: (rs_relay a, op) :: h). cbn [up_tr_ rs_tr rs_relay] in *. split.
  - rewrite IH1. unfold tr_run. cbn [fold_left]. f_equal.
    change (tr_step (r_tr cfg) (rs_tr a) (rs_relay a, TBalances (rs_bal a))) with (tr_view a). unfold tr_step. cbn [fst snd]. by rewrite H.
  - cbn. split; [split; [lia|split; [lia|done]]|done].
Qed.
End proj.

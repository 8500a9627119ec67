(** Proof of property C148. *)
From Verif Require Import Prelude CommonTypes SigModel MsaModel CapModel TrModel StModel HModel ScModel MgModel FeeModel RtModel.
From Verif Require Import MsaSpec RtSpec RtProofs RtProj ConsentSpec ConsentProofs SpendSpec.

Section spend.
Variable cfg : RtCfg.

(** Deeds and nothing else. *)
Inductive acts : RtState -> list Deed -> RtState -> Prop :=
| acts_nil s : acts s [] s
| acts_deed s c o s1 ds s' : plain c -> rt_dispatch cfg c o s = Ok s1 -> acts s1 ds s' ->
    acts s ({| at_ := s; by_ := o_who o; what := c |} :: ds) s'.
Lemma acts_app a ds b ds' c : acts a ds b -> acts b ds' c -> acts a (ds ++ ds') c.
Proof.
  induction 1 as [s|s c0 o s1 ds s' H1 H2 _ IH]; intros Hw; [done|]. cbn. eapply acts_deed; [done|exact H2|by apply IH].
Qed.
Lemma batch_acts k f g l : Forall (fun c => forall st st', f c st = Ok st' -> acts st (g c st) st') l ->
  forall st st', run_batch k f l st = Ok st' -> acts st (batch_deeds k f g l st) st'.
Proof.
  induction 1 as [|c l Hc _ IH]; cbn; intros st st' H; [injection H as <-; constructor|].
  destruct (f c st) as [s1|e] eqn:E.
  - eapply acts_app; [by apply Hc|by apply IH].
  - destruct k; [injection H as <-; constructor|done|by apply IH].
Qed.
Lemma deeds_acts : forall c o st st', rt_dispatch cfg c o st = Ok st' -> acts st (deeds cfg c o st) st'.
Proof.
  induction c as [c Hl|k l IH|c IH|l IH|r f c IH|os c IH] using call_ind; intros o st st' H.
  - assert (deeds cfg c o st = [{| at_ := st; by_ := o_who o; what := c |}]) as ->.
    { destruct c; try done; cbn [deeds]; by rewrite H. }
    eapply acts_deed; [done|exact H|constructor].
  - cbn [deeds]. rewrite H. cbn [rt_dispatch] in H. destruct (base_filter _ _ && _); [|done].
    apply batch_acts; [|exact H]. eapply Forall_impl; [exact IH|]. cbn. intros c Hc s s' Hs. by apply Hc.
  - cbn [deeds]. rewrite H. cbn [rt_dispatch] in H. destruct (base_filter _ _ && _); [|done]. by apply IH.
  - cbn [deeds]. rewrite H. cbn [rt_dispatch] in H. destruct (base_filter _ _ && _); [|done]. destruct (_ <=? _); [|done].
    apply batch_acts; [|exact H]. eapply Forall_impl; [exact IH|]. cbn. intros c Hc s s' Hs. by apply Hc.
  - cbn [deeds]. rewrite H. cbn [rt_dispatch] in H. destruct (base_filter _ _ && _); [|done]. destruct (find_proxy _ _ _ _) as [t|]; [|done].
    destruct (rt_dispatch cfg c _ st) as [s1|] eqn:E.
    + injection H as <-. by apply IH.
    + injection H as <-. assert (deeds cfg c (add_filter (signed r) (proxied t)) st = []) as ->; [|constructor].
      destruct c; cbn [deeds]; by rewrite E.
  - cbn [deeds]. rewrite H. cbn [rt_dispatch] in H. destruct (base_filter _ _ && _); [|done]. by apply IH.
Qed.

(** ** One call *)
Definition kept_cap (s s' : RtState) : Prop := cs_cap (rs_cap s') = cs_cap (rs_cap s).
Definition no_less (m : N) (s s' : RtState) : Prop := capacity_left s m <= capacity_left s' m /\ capacity_issued s m <= capacity_issued s' m.
Lemma kept_no_less m s s' : kept_cap s s' -> no_less m s s'.
Proof. unfold kept_cap, no_less, capacity_left, capacity_issued. intros ->. split; lia. Qed.
Lemma no_less_trans m a b c : no_less m a b -> no_less m b c -> no_less m a c.
Proof. unfold no_less. lia. Qed.

Lemma lock_cap st w a st' : set_staking_account_and_lock st w a = Ok st' -> cs_cap st' = cs_cap st.
Proof. unfold set_staking_account_and_lock. intros H. destruct (chk_add _ _ _); [|done]. by injection H as <-. Qed.
Lemma stake_cap st valid w t a st' : stake (r_cap cfg) st valid w t a = Ok st' ->
  exists d d', cd_remaining (default cd_default (cs_cap st !! t)) <= d /\ cd_issued (default cd_default (cs_cap st !! t)) <= d'
    /\ exists x, cs_cap st' = <[t := x]> (cs_cap st) /\ cd_remaining x = d /\ cd_issued x = d'.
Proof.
  unfold stake, increase_stake_and_issue_capacity. intros H. destruct (ensure_can_stake _ _ _ _ _ _) as [[act amt]|]; [|done].
  destruct (chk_add u128_max amt act); [|done]. destruct (tg_deposit _ _ _); [|done].
  destruct (cd_deposit _ _ _) as [d'|] eqn:Ed; [|done]. destruct (set_staking_account_and_lock _ _ _) as [st1|] eqn:El; [|done].
  injection H as <-. apply lock_cap in El. unfold cd_deposit, chk_add in Ed. repeat (destruct (_ <=? u128_max); [|done]). injection Ed as <-.
  eexists _, _. split; [|split; [|eexists; split; [cbn; rewrite El; reflexivity|split; reflexivity]]]; cbn; lia.
Qed.
Lemma unstake_cap st w t a st' : unstake (r_cap cfg) st w t a = Ok st' ->
  is_Some (cs_targets st !! (w, t)) /\ exists x, cs_cap st' = <[t := x]> (cs_cap st).
Proof.
  unfold unstake. intros H. destruct (0 <? a); [|done].
  destruct (decrease_active_staking_balance _ _ _ _) as [[s1 act]|] eqn:E1; [|done].
  destruct (add_unlock_chunk _ _ _ _) as [s2|] eqn:E2; [|done].
  destruct (reduce_capacity _ _ _ _) as [[s3 c]|] eqn:E3; [|done]. injection H as <-.
  assert (F1 : cs_targets s1 = cs_targets st /\ cs_cap s1 = cs_cap st).
  { unfold decrease_active_staking_balance in E1. destruct (cs_staking st !! w); [|done]. destruct (_ <=? _); [|done].
    destruct (sd_withdraw _ _ _). injection E1 as <- _. done. }
  assert (F2 : cs_targets s2 = cs_targets st /\ cs_cap s2 = cs_cap st).
  { unfold add_unlock_chunk in E2. destruct (_ <? _); [|done]. injection E2 as <-. done. }
  unfold reduce_capacity in E3. destruct F2 as [F2 F3]. rewrite F2, F3 in E3. destruct (cs_targets st !! (w, t)); [|done].
  destruct (cs_cap st !! t); [|done]. injection E3 as <- _. split; [done|]. eexists. cbn. rewrite F3. reflexivity.
Qed.
Lemma withdraw_cap st w st' : withdraw_unstaked st w = Ok st' -> cs_cap st' = cs_cap st.
Proof.
  unfold withdraw_unstaked. intros H. destruct (cs_unlocks st !! w); [|done]. destruct (chunks_reap _ _). destruct (negb _); [|done].
  by injection H as <-.
Qed.

Lemma deed_cap c o s s' m : plain c -> rt_dispatch cfg c o s = Ok s' ->
  unstaked {| at_ := s; by_ := o_who o; what := c |} m \/ no_less m s s'.
Proof.
  intros Hp H. pose proof (leaf_inv _ _ _ _ _ Hp H) as [_ L].
  destruct c as [c|c|c|c|c|c|c|c| | | | | | |]; try done; cbn beta iota in L.
  - destruct L as (x & Hd & ->). right. by apply kept_no_less.
  - destruct L as (x & Hd & ->). right. by apply kept_no_less.
  - destruct L as (x & Hd & ->). right. by apply kept_no_less.
  - destruct L as (x & Hd & ->). right. by apply kept_no_less.
  - destruct L as (x & Hd & ->). right. by apply kept_no_less.
  - destruct c as [t a|t a| |]; cbn [cap_dispatch] in L; [| | |done]; apply lift_ok in L as (x & Hd & E); injection E as <-.
    + right. apply stake_cap in Hd as (d & d' & L1 & L2 & y & E & <- & <-). unfold no_less, capacity_left, capacity_issued. cbn [up_cap_ rs_cap].
      rewrite E. cbn [cap_view k_set_bal cs_cap] in *. destruct (decide (t = m)) as [->|Hne].
      * rewrite lookup_insert. destruct (cs_cap (rs_cap s) !! m); cbn in L1, L2; lia.
      * rewrite lookup_insert_ne by done. lia.
    + apply unstake_cap in Hd as (T & y & E). cbn [cap_view k_set_bal cs_cap cs_targets] in *. destruct (decide (t = m)) as [->|Hne].
      * left. by exists a.
      * right. unfold no_less, capacity_left, capacity_issued. cbn [up_cap_ rs_cap]. rewrite E. rewrite lookup_insert_ne by done. lia.
    + right. apply kept_no_less. apply withdraw_cap in Hd. exact Hd.
  - right. apply kept_no_less. destruct c as [|to sch|wh l|wh]; cbn [time_dispatch] in L; [| |done|].
    + apply lift_ok in L as (x & _ & E); by injection E as <-.
    + apply lift_ok in L as (x & _ & E). destruct (match sc_total sch with Some a => _ | None => _ end) as [s1|] eqn:Em; [|done]. injection E as <-.
      destruct (sc_total sch) as [a|]; [|done]. apply transfer_same in Em as [-> _]. done.
    + apply lift_ok in L as (x & _ & E); by injection E as <-.
  - right. apply kept_no_less. destruct c; cbn [bal_dispatch] in L; (apply transfer_same in L as [-> _]; done).
  - right. apply kept_no_less. by rewrite L.
  - subst. right. by apply kept_no_less.
Qed.
Lemma acts_cap m s ds s' : acts s ds s' -> (exists g, g ∈ ds /\ unstaked g m) \/ no_less m s s'.
Proof.
  induction 1 as [s|s c o s1 ds s' H1 H2 _ IH]; [right; by apply kept_no_less|].
  destruct (deed_cap c o s s1 m H1 H2) as [U|U]; [left; eexists; split; [by left|exact U]|].
  destruct IH as [(g & Hg & Hu)|IH]; [left; exists g; split; [by right|done]|]. right. by eapply no_less_trans.
Qed.

(** ** One step *)
Lemma kept_refl s : kept_cap s s. Proof. done. Qed.
Lemma kept_nonce s n : kept_cap s (up_nonce_ s n). Proof. done. Qed.
Lemma kept_debit s k w a x : token_debit cfg s k w a = Some x -> kept_cap s x.
Proof. intros H. apply debit_same in H as [-> _]. done. Qed.
Lemma check_keeps s w n p s1 : check_nonce s w n p = Ok s1 -> kept_cap s s1 /\ rs_msa s1 = rs_msa s.
Proof.
  unfold check_nonce. intros H. destruct (_ <=? n); [|done]. destruct (n <=? _); [|done]. destruct (_ || _); by injection H as <-.
Qed.
Lemma token_fee_keeps s w c n tip s1 : withdraw_token_fee cfg s w c n tip = Ok s1 -> kept_cap s s1.
Proof.
  unfold withdraw_token_fee. intros H. destruct (_ =? 0); [by injection H as <-|].
  destruct (token_debit _ _ _ _ _) eqn:E; [|done]. injection H as <-. by eapply kept_debit.
Qed.
Lemma spend_cap st m f x m' : cap_spend st m f = Ok x -> m' <> m -> cs_cap x !! m' = cs_cap st !! m'.
Proof.
  unfold cap_spend, cap_replenish_all_for, cap_deduct. intros H Hne.
  destruct (cap_can_replenish st m).
  - destruct (cs_cap st !! m); [|done]. cbn in H. rewrite lookup_insert in H. destruct (cd_deduct _ _); [|done]. injection H as <-. cbn.
    rewrite !lookup_insert_ne by done. done.
  - destruct (cs_cap st !! m); [|done]. destruct (cd_deduct _ _); [|done]. injection H as <-. cbn. by rewrite lookup_insert_ne.
Qed.
Lemma capacity_fee_cap s w l n s1 m : withdraw_capacity_fee cfg s w l n = Ok s1 -> controls (rs_msa s) w m \/ no_less m s s1.
Proof.
  unfold withdraw_capacity_fee. intros H. destruct (capacity_charge _ _); [|done]. destruct (_ <=? _); [|done].
  destruct (ms_keys (rs_msa s) !! w) as [m'|] eqn:Ek; [|done]. destruct (cap_spend _ _ _) as [x|] eqn:E; [|done]. injection H as <-.
  destruct (decide (m = m')) as [->|Hne]; [by left|]. right. unfold no_less, capacity_left, capacity_issued. cbn [up_cap_ rs_cap].
  rewrite (spend_cap _ _ _ _ _ E Hne). lia.
Qed.
Lemma capacity_fee_issued s w l n s1 m : withdraw_capacity_fee cfg s w l n = Ok s1 -> capacity_issued s1 m = capacity_issued s m.
Proof.
  unfold withdraw_capacity_fee. intros H. destruct (capacity_charge _ _); [|done]. destruct (_ <=? _); [|done].
  destruct (ms_keys (rs_msa s) !! w) as [m'|] eqn:Ek; [|done]. destruct (cap_spend _ _ _) as [x|] eqn:E; [|done]. injection H as <-.
  unfold capacity_issued. cbn [up_cap_ rs_cap]. destruct (decide (m = m')) as [->|Hne]; [|by rewrite (spend_cap _ _ _ _ _ E Hne)].
  unfold cap_spend, cap_replenish_all_for, cap_deduct, cd_deduct in E.
  destruct (cap_can_replenish _ m').
  - destruct (cs_cap (rs_cap s) !! m'); [|done]. cbn in E. rewrite lookup_insert in E. destruct (chk_sub _ _); [|done]. injection E as <-. cbn.
    by rewrite lookup_insert.
  - destruct (cs_cap (rs_cap s) !! m'); [|done]. destruct (chk_sub _ _); [|done]. injection E as <-. cbn. by rewrite lookup_insert.
Qed.
Lemma capacity_dec c : with_capacity c \/ (forall s w n tip s1, withdraw_fee cfg s w c n tip = Ok s1 -> kept_cap s s1).
Proof. destruct c; try (by left); right; intros s w n tip s1 H; cbn [withdraw_fee] in H; by apply token_fee_keeps in H. Qed.
Lemma fee_cap s w c n tip s1 m : withdraw_fee cfg s w c n tip = Ok s1 ->
  (with_capacity c /\ controls (rs_msa s) w m \/ no_less m s s1) /\ capacity_issued s m <= capacity_issued s1 m.
Proof.
  intros H. destruct (capacity_dec c) as [Hc|Hc].
  - destruct c; try done; cbn [withdraw_fee] in H; (split; [destruct (capacity_fee_cap _ _ _ _ _ m H); auto|]);
      apply (capacity_fee_issued _ _ _ _ _ m) in H; lia.
  - apply Hc, (kept_no_less m) in H. split; [by right|]. apply H.
Qed.

Lemma step_cap s x m :
  (exists g, g ∈ step_deeds cfg s x /\ unstaked g m)
  \/ (((exists t, x = STx t /\ with_capacity (tx_call t) /\ controls (rs_msa s) (tx_who t) m) \/ no_less m s (rt_step cfg s x))
      /\ capacity_issued s m <= capacity_issued (rt_step cfg s x) m).
Proof.
  assert (K : kept_cap s (rt_step cfg s x) ->
    ((exists t, x = STx t /\ with_capacity (tx_call t) /\ controls (rs_msa s) (tx_who t) m) \/ no_less m s (rt_step cfg s x))
      /\ capacity_issued s m <= capacity_issued (rt_step cfg s x) m).
  { intros H. apply (kept_no_less m) in H. split; [by right|apply H]. }
  destruct x as [r|t|p|c]; cbn [step_deeds rt_step] in *.
  - right. apply K. unfold kept_cap. cbn. unfold on_initialize. by destruct (_ <=? _).
  - unfold tx_apply in *. destruct (check_nonce _ _ _ _) as [s1|] eqn:E1; [|right; by apply K].
    destruct (withdraw_fee _ _ _ _ _ _) as [s2|] eqn:E2; [|right; by apply K]. destruct (free_use _ _ _); [|right; by apply K].
    apply check_keeps in E1 as [E1 Em]. apply (kept_no_less m) in E1. apply (fee_cap _ _ _ _ _ _ m) in E2 as [F1 F2]. rewrite Em in F1.
    clear K. assert (F0 : capacity_issued s m <= capacity_issued s2 m) by (destruct E1; lia).
    assert (F : (exists t0, STx t = STx t0 /\ with_capacity (tx_call t0) /\ controls (rs_msa s) (tx_who t0) m) \/ no_less m s s2).
    { destruct F1 as [F1|F1]; [left; by exists t|right; by eapply no_less_trans]. }
    unfold run_call. destruct (rt_dispatch _ _ _ _) as [s3|] eqn:E4.
    + apply deeds_acts in E4. apply (acts_cap m) in E4 as [U|U]; [by left|]. right. split; [|destruct U; lia].
      destruct F as [F|F]; [by left|right; by eapply no_less_trans].
    + right. done.
  - right. apply K. unfold passkey_apply. destruct (negb _); [|done]. destruct (passkey_filter _) eqn:Ef; [|done].
    destruct (r_verify _ _ _ _); [|done]. destruct (check_nonce _ _ _ _) as [s1|] eqn:E1; [|done].
    destruct (withdraw_token_fee _ _ _ _ _ _) as [s2|] eqn:E2; [|done]. apply check_keeps in E1 as [E1 _]. apply token_fee_keeps in E2.
    unfold run_call. destruct (rt_dispatch _ _ _ _) as [s3|] eqn:E4; [|unfold kept_cap in *; congruence].
    assert (plain (pk_call p)) by (by destruct (pk_call p)).
    apply leaf_inv in E4 as [_ E4]; [|done]. destruct (pk_call p) as [| | | | | | |c| | | | | | |]; try done.
    assert (E5 : kept_cap s2 s3) by (destruct c; cbn [bal_dispatch] in E4; apply transfer_same in E4 as [-> _]; done).
    unfold kept_cap in *. congruence.
  - right. apply K. destruct (gov_apply cfg s c) as [s1|] eqn:E; [|done].
    destruct c; cbn [gov_apply] in E; apply lift_ok in E as (y & H & E); injection E as <-; try done.
    unfold kept_cap. cbn. unfold set_epoch_length in H. destruct (_ <=? _); [|done]. by injection H as <-.
Qed.
Lemma spend_lemma s x m : capacity_left (rt_step cfg s x) m < capacity_left s m ->
  (exists t, x = STx t /\ with_capacity (tx_call t) /\ controls (rs_msa s) (tx_who t) m) \/ (exists g, g ∈ step_deeds cfg s x /\ unstaked g m).
Proof. intros H. destruct (step_cap s x m) as [U|[[U|[U _]] _]]; [by right|by left|lia]. Qed.
Lemma issued_lemma s x m : capacity_issued (rt_step cfg s x) m < capacity_issued s m -> exists g, g ∈ step_deeds cfg s x /\ unstaked g m.
Proof. intros H. destruct (step_cap s x m) as [U|[_ U]]; [done|lia]. Qed.

(** ** Histories *)
Lemma first_drop (f : RtState -> N) h : forall s, f (rt_run cfg s h) < f s ->
  exists h1 x h2, h = h1 ++ x :: h2 /\ f (rt_step cfg (rt_run cfg s h1) x) < f (rt_run cfg s h1).
Proof.
  induction h as [|x h IH]; intros s H; [cbn in H; lia|]. change (rt_run cfg s (x :: h)) with (rt_run cfg (rt_step cfg s x) h) in H.
  destruct (N.lt_ge_cases (f (rt_step cfg s x)) (f s)) as [L|L]; [by exists [], x, h|].
  destruct (IH (rt_step cfg s x)) as (h1 & y & h2 & -> & D); [lia|]. by exists (x :: h1), y, h2.
Qed.
Lemma spend_run s h m : capacity_left (rt_run cfg s h) m < capacity_left s m ->
  exists h1 x h2, h = h1 ++ x :: h2 /\ let s1 := rt_run cfg s h1 in
    (exists t, x = STx t /\ with_capacity (tx_call t) /\ controls (rs_msa s1) (tx_who t) m) \/ (exists g, g ∈ step_deeds cfg s1 x /\ unstaked g m).
Proof.
  intros H. destruct (first_drop (fun s => capacity_left s m) h s H) as (h1 & x & h2 & E & D). exists h1, x, h2. split; [done|]. by apply spend_lemma.
Qed.
Lemma issued_run s h m : capacity_issued (rt_run cfg s h) m < capacity_issued s m ->
  exists h1 x h2, h = h1 ++ x :: h2 /\ exists g, g ∈ step_deeds cfg (rt_run cfg s h1) x /\ unstaked g m.
Proof.
  intros H. destruct (first_drop (fun s => capacity_issued s m) h s H) as (h1 & x & h2 & E & D). exists h1, x, h2. split; [done|]. by apply issued_lemma.
Qed.
End spend.

(** Proofs about the capacity model. *)
From Verif Require Import Prelude Sums CapModel CapSpec.

Local Arguments chunks_reap : simpl never.
Local Arguments chunks_total : simpl never.

(** ** Chunk sums *)
Lemma chunks_fold l acc :
  acc <= u128_max ->
  fold_left (fun acc c => sat_add u128_max acc (ck_value c)) l acc = N.min u128_max (acc + values l).
Proof.
  revert acc; induction l as [|c l IH]; intros acc Ha; cbn.
  - unfold values; cbn. lia.
  - rewrite IH by (unfold sat_add; lia). unfold sat_add, values; cbn. lia.
Qed.

Lemma chunks_total_eq l : chunks_total l = N.min u128_max (values l).
Proof. unfold chunks_total. rewrite chunks_fold; [f_equal|]; lia. Qed.

Lemma values_app l k : values (l ++ k) = values l + values k.
Proof. unfold values. by rewrite map_app, sumN_app. Qed.

Lemma values_cons c l : values (c :: l) = ck_value c + values l.
Proof. done. Qed.

Lemma values_split l e :
  values l = values (filter (fun c => ck_thaw c <= e) l) + values (filter (fun c => e < ck_thaw c) l).
Proof.
  induction l as [|c l IH]; [done|].
  rewrite !filter_cons. unfold values in *; cbn in *.
  destruct (decide (ck_thaw c <= e)), (decide (e < ck_thaw c)); cbn; lia.
Qed.

Lemma chunks_reap_eq l e :
  chunks_reap l e = (filter (fun c => e < ck_thaw c) l, N.min u128_max (values (filter (fun c => ck_thaw c <= e) l))).
Proof. unfold chunks_reap. rewrite chunks_fold by lia. do 2 f_equal; lia. Qed.

Ltac rw_lookup :=
  repeat match goal with
  | E : ?m !! ?k = Some _ |- context [?m !! ?k] => rewrite E
  end.

Lemma log_sum_snoc f l e : log_sum f (l ++ [e]) = log_sum f l + f e.1 e.2.
Proof. unfold log_sum. rewrite map_app, sumN_app. cbn. lia. Qed.

Section cap.
Variable cfg : CapCfg.
Notation apply := (cap_apply cfg).
Notation step := (cap_step cfg).
Notation run := (cap_run cfg).

(** ** What a successful operation does *)
Inductive cap_effect (st : CapState) : CapOp -> CapState -> Prop :=
| EffStake valid s t amt actual c :
    0 < actual -> actual <= amt -> actual <= token_balance st s - k_min_token cfg ->
    valid t = true ->
    k_min_stake cfg <= active st s + actual ->
    active st s + actual + N.min u128_max (unlocking st s) <= u128_max ->
    tokens_at st t + actual <= u128_max ->
    c = capacity_generated cfg actual ->
    cap_effect st (OpStake valid s t amt)
      {| cs_staking := <[s := active st s + actual]> (cs_staking st);
         cs_targets := <[(s, t) := {| tg_amount := targeted st s t + actual;
                                      tg_capacity := targeted_capacity st s t + c |}]> (cs_targets st);
         cs_cap := <[t := {| cd_remaining := remaining st t + c; cd_tokens := tokens_at st t + actual;
                             cd_issued := issued st t + c;
                             cd_last := cd_last (default cd_default (cs_cap st !! t)) |}]> (cs_cap st);
         cs_unlocks := cs_unlocks st;
         cs_epoch := cs_epoch st; cs_epoch_start := cs_epoch_start st; cs_epoch_len := cs_epoch_len st;
         cs_freeze := <[s := active st s + actual + N.min u128_max (unlocking st s)]> (cs_freeze st);
         cs_bal := cs_bal st;
         cs_log := cs_log st ++ [(cs_epoch st, Staked s t actual c)] |}
| EffUnstake s t amt a0 actual tg d c a' :
    0 < amt -> amt <= a0 -> cs_staking st !! s = Some a0 ->
    cs_targets st !! (s, t) = Some tg -> cs_cap st !! t = Some d ->
    len (chunks st s) < k_max_chunks cfg ->
    ((a' = 0 /\ actual = a0 /\ a0 - amt <= k_min_stake cfg) \/
     (a' = a0 - amt /\ actual = amt /\ k_min_stake cfg < a')) ->
    c = (if tg_amount tg =? actual then tg_capacity tg
         else calculate_capacity_reduction actual (cd_tokens d) (cd_issued d)) ->
    cap_effect st (OpUnstake s t amt)
      {| cs_staking := if a' =? 0 then delete s (cs_staking st) else <[s := a']> (cs_staking st);
         cs_targets := if tg_amount tg - actual =? 0 then delete (s, t) (cs_targets st)
                       else <[(s, t) := {| tg_amount := tg_amount tg - actual; tg_capacity := tg_capacity tg - c |}]> (cs_targets st);
         cs_cap := <[t := {| cd_remaining := cd_remaining d - c; cd_tokens := cd_tokens d - actual;
                             cd_issued := cd_issued d - c; cd_last := cd_last d |}]> (cs_cap st);
         cs_unlocks := <[s := chunks st s ++ [{| ck_value := actual; ck_thaw := sat_add u32_max (cs_epoch st) (k_thaw cfg) |}]]> (cs_unlocks st);
         cs_epoch := cs_epoch st; cs_epoch_start := cs_epoch_start st; cs_epoch_len := cs_epoch_len st;
         cs_freeze := cs_freeze st;
         cs_bal := cs_bal st;
         cs_log := cs_log st ++ [(cs_epoch st, UnStaked s t actual c)] |}
| EffWithdraw s l rest amount total un fr :
    cs_unlocks st !! s = Some l ->
    rest = filter (fun c => cs_epoch st < ck_thaw c) l ->
    amount = N.min u128_max (values (filter (fun c => ck_thaw c <= cs_epoch st) l)) ->
    0 < amount ->
    total = N.min u128_max (active st s + N.min u128_max (values rest)) ->
    un = match rest with [] => delete s (cs_unlocks st) | _ => <[s := rest]> (cs_unlocks st) end ->
    fr = (if total =? 0 then delete s (cs_freeze st) else <[s := total]> (cs_freeze st)) ->
    cap_effect st (OpWithdraw s)
      {| cs_staking := cs_staking st; cs_targets := cs_targets st; cs_cap := cs_cap st;
         cs_unlocks := un;
         cs_epoch := cs_epoch st; cs_epoch_start := cs_epoch_start st; cs_epoch_len := cs_epoch_len st;
         cs_freeze := fr;
         cs_bal := cs_bal st;
         cs_log := cs_log st ++ [(cs_epoch st, StakeWithdrawn s amount)] |}
| EffEpochLen n :
    n <= k_max_epoch_len cfg ->
    cap_effect st (OpSetEpochLength true n) (k_emit (k_set_epoch_len st n) (EpochLengthUpdated n))
| EffSpend m f d d' :
    cs_cap st !! m = Some d ->
    d' = (if cd_last d <? cs_epoch st then cd_replenish_all d (cs_epoch st) else d) ->
    f <= cd_remaining d' ->
    cap_effect st (OpSpend m f)
      (k_emit (k_set_cap st (<[m := {| cd_remaining := cd_remaining d' - f; cd_tokens := cd_tokens d;
                                cd_issued := cd_issued d; cd_last := cd_last d' |}]> (cs_cap st)))
              (CapacityWithdrawn m f))
| EffReplenishAll m d :
    cs_cap st !! m = Some d ->
    cap_effect st (OpReplenishAll m) (k_set_cap st (<[m := cd_replenish_all d (cs_epoch st)]> (cs_cap st)))
| EffReplenishBy m a : cap_effect st (OpReplenishBy m a) st
| EffBlock n : cap_effect st (OpBlock n) (on_initialize st n)
| EffBal b : cap_effect st (OpBalances b) (k_set_bal st b).

Lemma chk_add_some mx a b c : chk_add mx a b = Some c -> c = a + b /\ a + b <= mx.
Proof. unfold chk_add. destruct (N.leb_spec (a + b) mx); intros E; inversion E; lia. Qed.
Lemma chk_sub_some a b c : chk_sub a b = Some c -> c = a - b /\ b <= a.
Proof. unfold chk_sub. destruct (N.leb_spec b a); intros E; inversion E; lia. Qed.

Lemma stake_effect st valid s t amt st' :
  stake cfg st valid s t amt = Ok st' -> cap_effect st (OpStake valid s t amt) st'.
Proof.
  unfold stake, ensure_can_stake, increase_stake_and_issue_capacity, set_staking_account_and_lock,
    tg_deposit, cd_deposit.
  intros H. split_all H.
  repeat match goal with E : chk_add _ _ _ = Some _ |- _ => apply chk_add_some in E as [? ?]; subst end.
  repeat match goal with
  | E : Some _ = Some _ |- _ => injection E as E; subst
  | E : (_, _) = (_, _) |- _ => injection E as ?; subst
  end.
  rewrite chunks_total_eq in *.
  fold (active st s) in *. fold (chunks st s) in *. fold (unlocking st s) in *.
  fold (token_balance st s) in *.
  unfold k_emit, set_capacity_for, set_target_details_for, set_staking_account, set_freeze,
    get_stakable_amount_for, k_set_cap, k_set_targets, k_set_staking, k_set_freeze in *; cbn in *.
  fold (token_balance st s) in *.
  set (actual := N.min (token_balance st s - k_min_token cfg) amt) in *.
  fold (targeted st s t) in *. fold (targeted_capacity st s t) in *.
  fold (remaining st t) (issued st t) (tokens_at st t) in *.
  match goal with |- context [if ?b =? 0 then delete s (cs_freeze st) else _] => destruct (N.eqb_spec b 0); [lia|] end.
  match goal with |- context [if ?b =? 0 then delete s (cs_staking st) else _] => destruct (N.eqb_spec b 0); [lia|] end.
  match goal with |- context [if ?b =? 0 then delete (s, t) (cs_targets st) else _] => destruct (N.eqb_spec b 0); [lia|] end.
  pose proof (EffStake st valid s t amt actual _ ltac:(lia) ltac:(lia) ltac:(lia) ltac:(done)
     ltac:(lia) ltac:(lia) ltac:(lia) eq_refl) as HE.
  rewrite (N.add_comm (active st s) actual), (N.add_comm (targeted st s t)),
    (N.add_comm (targeted_capacity st s t)), (N.add_comm (remaining st t)),
    (N.add_comm (tokens_at st t)), (N.add_comm (issued st t)) in HE.
  exact HE.
Qed.

Lemma unstake_effect st s t amt st' :
  unstake cfg st s t amt = Ok st' -> cap_effect st (OpUnstake s t amt) st'.
Proof.
  unfold unstake, decrease_active_staking_balance, add_unlock_chunk, reduce_capacity, sd_withdraw.
  intros H.
  destruct (N.ltb_spec 0 amt); [|done].
  destruct (cs_staking st !! s) as [a0|] eqn:Ea; [|done].
  destruct (N.leb_spec amt a0); [|done].
  destruct (N.leb_spec (a0 - amt) (k_min_stake cfg)); cbn in H; fold (chunks st s) in H.
  all: destruct (N.ltb_spec (len (chunks st s)) (k_max_chunks cfg)); [|done].
  all: cbn in H.
  all: destruct (cs_targets st !! (s, t)) as [tg|] eqn:Et; [|done].
  all: destruct (cs_cap st !! t) as [d|] eqn:Ed; [|done].
  all: injection H as <-.
  - eapply (EffUnstake st s t amt a0 a0 tg d _ 0); try done. left. auto.
  - eapply (EffUnstake st s t amt a0 amt tg d _ (a0 - amt)); try done. right. auto.
Qed.

Lemma apply_effect st op st' : apply st op = Ok st' -> cap_effect st op st'.
Proof.
  destruct op; cbn [cap_apply].
  - apply stake_effect.
  - apply unstake_effect.
  - unfold withdraw_unstaked. intros H.
    destruct (cs_unlocks st !! staker) as [l|] eqn:El; [|done].
    rewrite chunks_reap_eq in H.
    set (rest := filter (fun c => cs_epoch st < ck_thaw c) l) in *.
    match type of H with context [negb (?x =? 0)] => set (amount := x) in * end.
    destruct (N.eqb_spec amount 0); [done|]. cbn in H. injection H as <-.
    eapply (EffWithdraw st staker l rest amount); try done; [lia|].
    unfold sat_add. fold (active st staker). destruct rest; [done|]. rewrite chunks_total_eq. done.
  - unfold set_epoch_length. intros H. destruct root; [|done].
    destruct (N.leb_spec n (k_max_epoch_len cfg)); [|done]. injection H as <-. by constructor.
  - unfold cap_spend, cap_can_replenish, cap_replenish_all_for, cap_deduct, cd_deduct, cd_can_replenish. intros H.
    destruct (cs_cap st !! msa) as [d|] eqn:Ed; [|rewrite ?Ed in H; done].
    destruct (cd_last d <? cs_epoch st) eqn:Hr; cbn in H.
    + rewrite lookup_insert in H. unfold chk_sub in H. cbn in H.
      destruct (N.leb_spec fee (cd_issued d)); [|done]. injection H as <-.
      unfold k_emit, set_capacity_for, k_set_cap; cbn. rewrite insert_insert.
      eapply (EffSpend st msa fee d (cd_replenish_all d (cs_epoch st))); cbn; [done|by rewrite Hr|done].
    + rewrite Ed in H. unfold chk_sub in H. destruct (N.leb_spec fee (cd_remaining d)); [|done].
      injection H as <-. eapply (EffSpend st msa fee d d); [done|by rewrite Hr|done].
  - unfold cap_replenish_all_for. intros H. destruct (cs_cap st !! msa) as [d|] eqn:Ed; [|done].
    injection H as <-. by constructor.
  - unfold cap_replenish_by_amount. intros H. destruct (cs_cap st !! msa); [|done]. injection H as <-. constructor.
  - intros H. injection H as <-. constructor.
  - intros H. injection H as <-. constructor.
Qed.

Lemma step_cases st op : step st op = st \/ cap_effect st op (step st op).
Proof.
  unfold cap_step. destruct (apply st op) as [st'|e] eqn:E; [right|by left]. by apply apply_effect.
Qed.

Lemma run_app st h1 h2 : run st (h1 ++ h2) = run (run st h1) h2.
Proof. apply fold_left_app. Qed.

Lemma run_ind (P : CapState -> Prop) h st :
  P st -> (forall s op s', P s -> cap_effect s op s' -> P s') -> P (run st h).
Proof.
  intros H0 Hs. revert st H0. induction h as [|op h IH]; intros st H0; [done|].
  cbn. apply IH. destruct (step_cases st op) as [->|He]; [done|]. by eapply Hs.
Qed.

Lemma run_ind_in (Q : CapOp -> Prop) (P : CapState -> Prop) h st :
  Forall Q h -> P st -> (forall s op s', Q op -> P s -> cap_effect s op s' -> P s') -> P (run st h).
Proof.
  intros HQ H0 Hs. revert st H0. induction HQ as [|op h Hop _ IH]; intros st H0; [done|].
  cbn. apply IH. destruct (step_cases st op) as [->|He]; [done|]. by eapply Hs.
Qed.

(** Field projections of [on_initialize] *)
Lemma oni st n : on_initialize st n = st \/ on_initialize st n = k_set_epoch st (sat_add u32_max (cs_epoch st) 1) n.
Proof. unfold on_initialize. destruct (cs_epoch_len st <=? n - cs_epoch_start st); auto. Qed.

(** ** Tokens *)
Definition tok_inv (st : CapState) : Prop :=
  forall a, frozen st a = active st a + unlocking st a /\
            staked_total a (cs_log st) = active st a + unlocking st a + withdrawn_total a (cs_log st) /\
            active st a + unlocking st a <= u128_max /\
            (forall x, cs_staking st !! a = Some x -> 0 < x /\ k_min_stake cfg <= x) /\
            len (chunks st a) <= k_max_chunks cfg /\
            Forall (fun c => 0 < ck_value c) (chunks st a).

Lemma filter_Forall {A} (P Q : A -> Prop) `{forall x, Decision (P x)} (l : list A) : Forall Q l -> Forall Q (filter P l).
Proof. induction 1; [constructor|]. rewrite filter_cons. destruct (decide _); [constructor|]; done. Qed.

Lemma len_filter {A} (P : A -> Prop) `{forall x, Decision (P x)} (l : list A) : len (filter P l) <= len l.
Proof. unfold len. pose proof (filter_length P l). lia. Qed.

Lemma tok_inv_preserved st op st' : tok_inv st -> cap_effect st op st' -> tok_inv st'.
Proof.
  intros I He. destruct He.
  - (* stake *)
    intros b. destruct (I b) as (I1 & I2 & I3 & I4 & I5 & I6).
    unfold frozen, active, unlocking, chunks, staked_total, withdrawn_total in *; cbn in *.
    rewrite !log_sum_snoc; cbn.
    destruct (decide (b = s)) as [->|Hn].
    + rewrite !lookup_insert, N.eqb_refl; cbn. rewrite N.min_r in * by lia.
      split; [done|]. split; [lia|]. split; [lia|]. split; [intros x [= <-]; lia|]. done.
    + rewrite !lookup_insert_ne by done. destruct (N.eqb_spec s b); [congruence|].
      rewrite !N.add_0_r. done.
  - (* unstake *)
    intros b. destruct (I b) as (I1 & I2 & I3 & I4 & I5 & I6).
    unfold frozen, active, unlocking, chunks, staked_total, withdrawn_total in *; cbn in *.
    rewrite !log_sum_snoc; cbn. rewrite !N.add_0_r.
    destruct (decide (b = s)) as [->|Hn].
    + rewrite lookup_insert; cbn. rewrite values_app. unfold values at 2 4 6; cbn.
      destruct (I4 _ H1) as [? ?]. rewrite H1 in *. cbn in *.
      assert (Ha' : default 0 ((if a' =? 0 then delete s (cs_staking st) else <[s:=a']> (cs_staking st)) !! s) = a').
      { destruct (N.eqb_spec a' 0) as [->|]; [by rewrite lookup_delete|by rewrite lookup_insert]. }
      rewrite Ha'. rewrite len_app.
      assert (a' + actual = a0) by lia.
      split; [lia|]. split; [lia|]. split; [lia|]. split.
      { intros x. destruct (N.eqb_spec a' 0) as [->|]; [by rewrite lookup_delete|rewrite lookup_insert]. intros [= <-]. lia. }
      split; [unfold len in *; cbn; lia|]. apply Forall_app. split; [done|]. constructor; [cbn; lia|constructor].
    + rewrite lookup_insert_ne by done.
      assert (Ha' : (if a' =? 0 then delete s (cs_staking st) else <[s:=a']> (cs_staking st)) !! b = cs_staking st !! b).
      { destruct (N.eqb_spec a' 0) as [->|]; [by rewrite lookup_delete_ne|by rewrite lookup_insert_ne]. }
      rewrite Ha'. done.
  - (* withdraw *)
    intros b. destruct (I b) as (I1 & I2 & I3 & I4 & I5 & I6).
    unfold frozen, active, unlocking, chunks, staked_total, withdrawn_total in *; cbn in *.
    rewrite !log_sum_snoc; cbn. rewrite !N.add_0_r.
    destruct (decide (b = s)) as [->|Hn].
    + rewrite H in *; cbn in *. rewrite N.eqb_refl.
      assert (Hu : default [] (un !! s) = rest).
      { rewrite H4. destruct rest; [by rewrite lookup_delete|by rewrite lookup_insert]. }
      assert (Hf : default 0 (fr !! s) = total).
      { rewrite H5. destruct (N.eqb_spec total 0) as [->|]; [by rewrite lookup_delete|by rewrite lookup_insert]. }
      rewrite Hu, Hf. pose proof (values_split l (cs_epoch st)). rewrite <- H0 in *.
      pose proof (len_filter (fun c => cs_epoch st < ck_thaw c) l). rewrite <- H0 in *.
      do 4 (split; [first [lia|done]|]). split; [lia|]. subst rest. by apply filter_Forall.
    + rewrite H4, H5. destruct (N.eqb_spec s b); [congruence|]. rewrite N.add_0_r.
      destruct rest, (total =? 0); rewrite ?lookup_delete_ne, ?lookup_insert_ne by done; done.
  - intros b. destruct (I b) as (I1 & I2 & I3 & I4 & I5 & I6).
    unfold frozen, active, unlocking, chunks, staked_total, withdrawn_total in *; cbn in *.
    rewrite !log_sum_snoc; cbn. rewrite !N.add_0_r. done.
  - intros b. destruct (I b) as (I1 & I2 & I3 & I4 & I5 & I6).
    unfold frozen, active, unlocking, chunks, staked_total, withdrawn_total in *; cbn in *.
    rewrite !log_sum_snoc; cbn. rewrite !N.add_0_r. done.
  - done.
  - done.
  - destruct (oni st n) as [->| ->]; [done|]. done.
  - done.
Qed.

Lemma tok_inv_run h : tok_inv (run cap_genesis h).
Proof.
  apply run_ind; [|apply tok_inv_preserved].
  intros a. unfold frozen, active, unlocking, chunks; cbn. rewrite !lookup_empty; cbn.
  do 3 (split; [done|]). split; [intros x Hx; discriminate Hx|]. split; [|constructor]. unfold len; cbn; lia.
Qed.

Lemma frozen_lemma h a : frozen (run cap_genesis h) a = active (run cap_genesis h) a + unlocking (run cap_genesis h) a.
Proof. apply tok_inv_run. Qed.

Lemma conservation_lemma h a :
  let st := run cap_genesis h in
  staked_total a (cs_log st) = active st a + unlocking st a + withdrawn_total a (cs_log st).
Proof. apply tok_inv_run. Qed.

Lemma chunk_bound_lemma h a : len (chunks (run cap_genesis h) a) <= k_max_chunks cfg.
Proof. apply tok_inv_run. Qed.

Lemma unstake_full_lemma st s t amt st' :
  k_max_chunks cfg <= len (chunks st s) -> apply st (OpUnstake s t amt) <> Ok st'.
Proof.
  intros Hl H. apply apply_effect in H. inversion H; subst; clear H. lia.
Qed.

Lemma unstake_appends_lemma st s t amt st' :
  apply st (OpUnstake s t amt) = Ok st' ->
  exists c, chunks st' s = chunks st s ++ [c] /\ ck_value c = active st s - active st' s /\ amt <= ck_value c /\
    (cs_epoch st + k_thaw cfg <= u32_max -> ck_thaw c = cs_epoch st + k_thaw cfg).
Proof.
  intros H. apply apply_effect in H. inversion H; subst; clear H. eexists. unfold chunks at 1; cbn.
  rewrite lookup_insert; cbn. split; [done|]. cbn. unfold active; cbn. rw_lookup; cbn. apply and_assoc. split.
  - destruct (N.eqb_spec a' 0) as [->|]; [rewrite lookup_delete|rewrite lookup_insert]; cbn; lia.
  - intros Hle. unfold sat_add. lia.
Qed.

Lemma no_dust_lemma h a :
  let st := run cap_genesis h in
  cs_staking st !! a = None \/ (k_min_stake cfg <= active st a /\ 0 < active st a).
Proof.
  cbn. destruct (tok_inv_run h a) as (_ & _ & _ & I & _). unfold active.
  destruct (cs_staking (run cap_genesis h) !! a) eqn:E; [right|by left]. cbn. destruct (I _ eq_refl). done.
Qed.

(** ** Thawing *)
Definition thaw_inv (st : CapState) : Prop :=
  cs_epoch st + k_thaw cfg <= u32_max ->
  forall a t, cs_epoch st <= t ->
    withdrawn_total a (cs_log st) + values (filter (fun c => ck_thaw c <= t) (chunks st a)) =
    unstaked_before (k_thaw cfg) t a (cs_log st).

Lemma effect_epoch st op st' : cap_effect st op st' ->
  cs_epoch st' = cs_epoch st \/ (cs_epoch st' = sat_add u32_max (cs_epoch st) 1 /\ exists n, op = OpBlock n).
Proof.
  destruct 1; cbn; auto. destruct (oni st n) as [->| ->]; cbn; eauto.
Qed.

Lemma filter_filter_le l e t :
  e <= t ->
  values (filter (fun c => ck_thaw c <= t) l) =
  values (filter (fun c => ck_thaw c <= e) l) +
  values (filter (fun c => ck_thaw c <= t) (filter (fun c => e < ck_thaw c) l)).
Proof.
  intros He. induction l as [|c l IH]; [done|]. rewrite !filter_cons.
  destruct (decide (ck_thaw c <= t)), (decide (ck_thaw c <= e)), (decide (e < ck_thaw c)); try lia;
    rewrite ?filter_cons, ?values_cons;
    repeat match goal with |- context [decide (ck_thaw c <= t)] => destruct (decide (ck_thaw c <= t)) end;
    rewrite ?values_cons; lia.
Qed.

(** Epochs never decrease. *)
Lemma effect_epoch_le st op st' : cap_effect st op st' -> cs_epoch st <= u32_max ->
  cs_epoch st <= cs_epoch st' /\ cs_epoch st' <= u32_max.
Proof. intros He Hle. destruct (effect_epoch _ _ _ He) as [->|[-> _]]; unfold sat_add; lia. Qed.

Lemma run_epoch_le st h : cs_epoch st <= u32_max -> cs_epoch st <= cs_epoch (run st h) /\ cs_epoch (run st h) <= u32_max.
Proof.
  intros H. apply (run_ind (fun s => cs_epoch st <= cs_epoch s /\ cs_epoch s <= u32_max)); [lia|].
  intros s op s' [? ?] He. pose proof (effect_epoch_le _ _ _ He). lia.
Qed.

Lemma genesis_epoch_le h : cs_epoch (run cap_genesis h) <= u32_max.
Proof. apply run_epoch_le. cbn; lia. Qed.

Lemma thaw_inv_preserved st op st' : cs_epoch st <= u32_max -> tok_inv st -> thaw_inv st -> cap_effect st op st' -> thaw_inv st'.
Proof.
  intros Hu32 T I He Hle a t Ht.
  assert (Hmono : cs_epoch st <= cs_epoch st').
  { by apply (effect_epoch_le _ _ _ He). }
  assert (Hle0 : cs_epoch st + k_thaw cfg <= u32_max) by lia.
  specialize (I Hle0 a t). destruct (T a) as (_ & _ & T3 & _ & _ & _).
  destruct He; unfold unlocking, chunks, unstaked_before, withdrawn_total in *; cbn in *;
    rewrite ?log_sum_snoc; cbn; rewrite ?N.add_0_r; try (apply I; lia).
  - destruct (decide (a = s)) as [->|Hn].
    + rewrite lookup_insert, N.eqb_refl; cbn. rewrite filter_app, values_app.
      rewrite filter_cons, filter_nil. cbn [ck_thaw]. unfold sat_add.
      rewrite N.min_r by lia.
      destruct (N.leb_spec (cs_epoch st + k_thaw cfg) t); destruct (decide _); try lia; unfold values at 2; cbn; lia.
    + rewrite lookup_insert_ne by done. destruct (N.eqb_spec s a); [congruence|]. cbn. rewrite N.add_0_r. apply I; lia.
  - destruct (decide (a = s)) as [->|Hn].
    + rewrite N.eqb_refl. assert (Hu : default [] (un !! s) = rest).
      { rewrite H4. destruct rest; [by rewrite lookup_delete|by rewrite lookup_insert]. }
      rewrite Hu. rewrite <- I by lia. rewrite H in *; cbn in *.
      rewrite (filter_filter_le l (cs_epoch st) t) by done. rewrite <- H0.
      pose proof (values_split l (cs_epoch st)). lia.
    + destruct (N.eqb_spec s a); [congruence|]. rewrite N.add_0_r. subst un.
      destruct rest; rewrite ?lookup_delete_ne, ?lookup_insert_ne by done; apply I; lia.
  - destruct (oni st n) as [E|E]; rewrite E in *; cbn in *; apply I; lia.
Qed.

Lemma thaw_inv_run h : thaw_inv (run cap_genesis h).
Proof.
  assert (cs_epoch (run cap_genesis h) <= u32_max /\ tok_inv (run cap_genesis h) /\ thaw_inv (run cap_genesis h)) as (_ & _ & ?); [|done].
  apply (run_ind (fun st => cs_epoch st <= u32_max /\ tok_inv st /\ thaw_inv st)).
  - split; [done|]. split; [exact (tok_inv_run [])|]. intros _ a t _. unfold chunks; cbn. by rewrite lookup_empty.
  - intros s op s' (? & ? & ?) ?. split; [by eapply effect_epoch_le|].
    split; [by eapply tok_inv_preserved|by eapply thaw_inv_preserved].
Qed.

Lemma no_early_lemma h a :
  let st := run cap_genesis h in
  cs_epoch st + k_thaw cfg <= u32_max ->
  withdrawn_total a (cs_log st) <= unstaked_before (k_thaw cfg) (cs_epoch st) a (cs_log st).
Proof. intros st Hle. pose proof (thaw_inv_run h Hle a (cs_epoch st) ltac:(done)) as E. fold st in E. lia. Qed.

Lemma withdraw_exact_lemma h a st' :
  let st := run cap_genesis h in
  apply st (OpWithdraw a) = Ok st' ->
  cs_log st' = cs_log st ++ [(cs_epoch st, StakeWithdrawn a (values (filter (fun c => ck_thaw c <= cs_epoch st) (chunks st a))))] /\
  chunks st' a = filter (fun c => cs_epoch st < ck_thaw c) (chunks st a).
Proof.
  intros st H. apply apply_effect in H. destruct (tok_inv_run h a) as (_ & _ & T3 & _). fold st in T3.
  inversion H; subst; clear H; unfold unlocking, chunks in *; cbn. match goal with E : cs_unlocks st !! a = Some _ |- _ => rewrite E in * end; cbn in *.
  pose proof (values_split l (cs_epoch st)). split.
  - rewrite N.min_r by lia. done.
  - destruct (filter (λ c : Chunk, cs_epoch st < ck_thaw c) l); [by rewrite lookup_delete|by rewrite lookup_insert].
Qed.

Lemma values_pos l : Forall (fun c => 0 < ck_value c) l -> l <> [] -> 0 < values l.
Proof. destruct 1; [done|]. intros _. unfold values; cbn. lia. Qed.

Lemma withdraw_live_lemma h a c :
  let st := run cap_genesis h in
  c ∈ chunks st a -> ck_thaw c <= cs_epoch st ->
  exists st', apply st (OpWithdraw a) = Ok st'.
Proof.
  intros st Hc Ht. destruct (tok_inv_run h a) as (_ & _ & T3 & _ & _ & T6). fold st in T3, T6.
  cbn. unfold withdraw_unstaked. unfold unlocking, chunks in *.
  destruct (cs_unlocks st !! a) as [l|]; cbn in *; [|by apply elem_of_nil in Hc].
  rewrite chunks_reap_eq.
  assert (0 < values (filter (fun c => ck_thaw c <= cs_epoch st) l)).
  { apply values_pos; [by apply filter_Forall|]. intros E.
    assert (Hin : c ∈ filter (fun c => ck_thaw c <= cs_epoch st) l) by by apply elem_of_list_filter.
    rewrite E in Hin. by apply elem_of_nil in Hin. }
  match goal with |- context [negb (?x =? 0)] => destruct (N.eqb_spec x 0) end; [unfold u128_max in *; lia|].
  cbn. eauto.
Qed.

(** ** Capacity *)
Lemma effect_remaining st op st' : cap_effect st op st' ->
  (forall m, remaining st m <= issued st m) -> forall m, remaining st' m <= issued st' m.
Proof.
  intros He I m. specialize (I m).
  destruct He; unfold remaining, issued in *; cbn in *; try done.
  - destruct (decide (m = t)) as [->|]; [rewrite lookup_insert; cbn; lia|by rewrite lookup_insert_ne].
  - destruct (decide (m = t)) as [->|]; [rewrite lookup_insert; cbn|by rewrite lookup_insert_ne].
    rewrite H3 in I; cbn in I. lia.
  - destruct (decide (m = m0)) as [->|]; [rewrite lookup_insert; cbn|by rewrite lookup_insert_ne].
    rewrite H in I; cbn in I. subst d'. destruct (cd_last d <? cs_epoch st); cbn in *; lia.
  - destruct (decide (m = m0)) as [->|]; [rewrite lookup_insert; cbn; lia|by rewrite lookup_insert_ne].
  - destruct (oni st n) as [->| ->]; done.
Qed.

Lemma remaining_lemma h m : remaining (run cap_genesis h) m <= issued (run cap_genesis h) m.
Proof.
  revert m. apply (run_ind (fun st => forall m, remaining st m <= issued st m)).
  - intros m. unfold remaining, issued; cbn. by rewrite lookup_empty.
  - intros. by eapply effect_remaining.
Qed.

Lemma spend_bound_aux m st h :
  no_bare_replenish h -> cs_epoch st <= u32_max ->
  forall sp0 gr0 iss0,
  ((cd_last (default cd_default (cs_cap st !! m)) < cs_epoch st /\ sp0 = 0 /\ issued st m <= iss0 + gr0) \/
   (cs_epoch st <= cd_last (default cd_default (cs_cap st !! m)) /\ sp0 + remaining st m <= iss0 + gr0)) ->
  cs_epoch (run st h) = cs_epoch st ->
  exists l, cs_log (run st h) = cs_log st ++ l /\ sp0 + spent m l <= iss0 + gr0 + granted m l.
Proof.
  intros Hn. revert st. induction Hn as [|op h Hop Hn IH]; intros st Hle sp0 gr0 iss0 Hi He.
  - exists []. rewrite app_nil_r. split; [done|]. unfold spent, granted, log_sum; cbn. lia.
  - cbn in He |- *. change (fold_left step h (step st op)) with (run (step st op) h) in *.
    assert (Hep : cs_epoch (step st op) = cs_epoch st).
    { destruct (step_cases st op) as [->|Hef]; [done|].
      pose proof (effect_epoch_le _ _ _ Hef Hle). pose proof (run_epoch_le (step st op) h). lia. }
    assert (Hsuff : forall ev, (cs_log (step st op) = cs_log st ++ ev) ->
      forall sp1 gr1,
      sp1 = sp0 + spent m ev -> gr1 = gr0 + granted m ev ->
      ((cd_last (default cd_default (cs_cap (step st op) !! m)) < cs_epoch (step st op) /\ sp1 = 0 /\ issued (step st op) m <= iss0 + gr1) \/
       (cs_epoch (step st op) <= cd_last (default cd_default (cs_cap (step st op) !! m)) /\ sp1 + remaining (step st op) m <= iss0 + gr1)) ->
      exists l, cs_log (run (step st op) h) = cs_log st ++ l /\ sp0 + spent m l <= iss0 + gr0 + granted m l).
    { intros ev Hev sp1 gr1 -> -> Hi1.
      destruct (IH (step st op) ltac:(lia) _ _ _ Hi1 ltac:(lia)) as (l & El & Hl).
      exists (ev ++ l). rewrite El, Hev, app_assoc. split; [done|].
      unfold spent, granted, log_sum in *. rewrite !map_app, !sumN_app. lia. }
    destruct (step_cases st op) as [E|Hef].
    { rewrite E in *. apply (Hsuff [] ltac:(by rewrite app_nil_r) sp0 gr0); [unfold spent, granted, log_sum; cbn; lia..|done]. }
    clear IH.
    revert Hsuff Hep He. generalize (step st op), Hef. intros st1 Hef1 Hsuff Hep He.
    destruct Hef1; unfold remaining, issued in *; cbn in *.
    + eapply Hsuff; [done..|]. unfold spent, granted, log_sum; cbn.
      destruct (N.eqb_spec t m) as [->|].
      * rewrite lookup_insert; cbn. unfold remaining, issued. lia.
      * rewrite lookup_insert_ne by done. lia.
    + eapply Hsuff; [done..|]. unfold spent, granted, log_sum; cbn.
      destruct (decide (t = m)) as [->|].
      * rewrite lookup_insert; cbn. rewrite H3 in *; cbn in *. lia.
      * rewrite lookup_insert_ne by done. lia.
    + eapply Hsuff; [done..|]. unfold spent, granted, log_sum; cbn. lia.
    + eapply Hsuff; [done..|]. unfold spent, granted, log_sum; cbn. lia.
    + eapply Hsuff; [done..|]. unfold spent, granted, log_sum; cbn.
      destruct (N.eqb_spec m0 m) as [->|].
      * rewrite lookup_insert; cbn. rewrite H in *; cbn in *. subst d'.
        destruct (N.ltb_spec (cd_last d) (cs_epoch st)); cbn in *; lia.
      * rewrite lookup_insert_ne by done. lia.
    + done.
    + apply (Hsuff [] ltac:(by rewrite app_nil_r) sp0 gr0); [unfold spent, granted, log_sum; cbn; lia..|done].
    + destruct (oni st n) as [E|E]; rewrite E in *; cbn in *;
        (apply (Hsuff [] ltac:(by rewrite app_nil_r) sp0 gr0); [unfold spent, granted, log_sum; cbn; lia..|lia]).
    + apply (Hsuff [] ltac:(by rewrite app_nil_r) sp0 gr0); [unfold spent, granted, log_sum; cbn; lia..|done].
Qed.

Lemma spend_bound_lemma h0 h m :
  let st := run cap_genesis h0 in
  no_bare_replenish h -> cs_epoch (run st h) = cs_epoch st ->
  exists l, cs_log (run st h) = cs_log st ++ l /\ spent m l <= issued st m + granted m l.
Proof.
  intros st Hn He.
  destruct (spend_bound_aux m st h Hn (genesis_epoch_le h0) 0 0 (issued st m)) as (l & El & Hl); [|done|].
  - pose proof (remaining_lemma h0 m). fold st in H.
    destruct (N.lt_ge_cases (cd_last (default cd_default (cs_cap st !! m))) (cs_epoch st)); [left|right]; lia.
  - exists l. split; [done|]. lia.
Qed.

(** ** Epochs *)
Lemma epoch_step_lemma st op :
  cs_epoch st <= u32_max ->
  let st' := step st op in
  cs_epoch st <= cs_epoch st' <= cs_epoch st + 1 /\
  (cs_epoch st' <> cs_epoch st \/ cs_epoch_start st' <> cs_epoch_start st ->
   exists n, op = OpBlock n /\ cs_epoch_len st <= n - cs_epoch_start st /\ cs_epoch_start st' = n) /\
  (forall n, op = OpBlock n -> cs_epoch_len st <= n - cs_epoch_start st -> cs_epoch st < u32_max ->
   cs_epoch st' = cs_epoch st + 1 /\ cs_epoch_start st' = n) /\
  (cs_epoch_len st' <> cs_epoch_len st ->
   exists n, op = OpSetEpochLength true n /\ n <= k_max_epoch_len cfg /\ cs_epoch_len st' = n).
Proof.
  intros Hle st'. subst st'.
  assert (Hb : forall n, op = OpBlock n -> step st op = on_initialize st n) by (intros n ->; done).
  destruct (step_cases st op) as [E|He].
  - rewrite E. split; [lia|]. split; [intros [?|?]; done|]. split; [|done].
    intros n -> Hlen Hlt. exfalso. apply (f_equal cs_epoch) in E. unfold cap_step in E; cbn in E. unfold on_initialize in E.
    destruct (N.leb_spec (cs_epoch_len st) (n - cs_epoch_start st)); [|lia]. cbn in E. unfold sat_add in E. lia.
  - clear Hb. revert He. generalize (step st op). intros st1 He. destruct He; cbn; try (split; [lia|]; split; [intros [?|?]; done|]; split; [intros; discriminate|]; try done).
    + intros _. eauto.
    + unfold on_initialize. destruct (N.leb_spec (cs_epoch_len st) (n - cs_epoch_start st)); cbn; unfold sat_add.
      * split; [lia|]. split; [eauto|]. split; [|done]. intros k [= ->] _ ?. lia.
      * split; [lia|]. split; [intros [?|?]; done|]. split; [|done]. intros k [= ->]. lia.
Qed.

Lemma blocks_snoc s k : blocks_after s (S k) = blocks_after s k ++ [OpBlock (s + N.of_nat (S k))].
Proof. unfold blocks_after. rewrite seq_S, map_app. done. Qed.

Lemma epochs_consecutive_lemma st k :
  0 < cs_epoch_len st ->
  let n := N.of_nat k in
  cs_epoch st + n / cs_epoch_len st <= u32_max ->
  let st' := run st (blocks_after (cs_epoch_start st) k) in
  cs_epoch st' = cs_epoch st + n / cs_epoch_len st /\
  cs_epoch_start st' = cs_epoch_start st + cs_epoch_len st * (n / cs_epoch_len st) /\
  cs_epoch_len st' = cs_epoch_len st.
Proof.
  intros HL. set (L := cs_epoch_len st) in *. induction k as [|k IH]; cbn zeta in *; intros Hb.
  - replace (N.of_nat 0) with 0 by lia. rewrite N.div_0_l by lia. cbn. split; [lia|]. split; [lia|done].
  - assert (Hd : N.of_nat (S k) / L = N.of_nat k / L \/
                 (N.of_nat (S k) / L = N.of_nat k / L + 1 /\ N.of_nat (S k) = L * (N.of_nat k / L + 1))).
    { pose proof (N.div_mod (N.of_nat k) L ltac:(lia)). pose proof (N.mod_lt (N.of_nat k) L ltac:(lia)).
      destruct (N.lt_ge_cases (N.of_nat k mod L + 1) L).
      - left. symmetry. apply (N.div_unique _ _ _ (N.of_nat k mod L + 1)); lia.
      - right. assert (N.of_nat (S k) = L * (N.of_nat k / L + 1)) by lia. split; [|done].
        symmetry. apply (N.div_unique _ _ _ 0); lia. }
    destruct IH as (I1 & I2 & I3).
    { destruct Hd as [Hd|[Hd _]]; rewrite Hd in Hb; lia. }
    rewrite blocks_snoc, run_app. cbn. unfold cap_step; cbn.
    set (s1 := run st (blocks_after (cs_epoch_start st) k)) in *.
    unfold on_initialize. rewrite I2, I3.
    pose proof (N.div_mod (N.of_nat k) L ltac:(lia)). pose proof (N.mod_lt (N.of_nat k) L ltac:(lia)).
    pose proof (N.div_mod (N.of_nat (S k)) L ltac:(lia)). pose proof (N.mod_lt (N.of_nat (S k)) L ltac:(lia)).
    set (q := N.of_nat k / L) in *. set (q' := N.of_nat (S k) / L) in *.
    destruct (N.leb_spec L (cs_epoch_start st + N.of_nat (S k) - (cs_epoch_start st + L * q))); cbn.
    + destruct Hd as [Hd|[Hd Hd']]; [rewrite Hd in *; lia|]. rewrite I1. unfold sat_add. rewrite Hd in *. lia.
    + destruct Hd as [Hd|[Hd Hd']]; [rewrite Hd in *; lia|]. rewrite Hd in *. nia.
Qed.

(** ** Backing *)
Lemma ratio_bounds a :
  2 * (capacity_generated cfg a * 10 ^ 9) <= 2 * (a * k_per_token cfg) + 10 ^ 9 /\
  2 * (a * k_per_token cfg) <= 2 * (capacity_generated cfg a * 10 ^ 9) + 10 ^ 9.
Proof.
  unfold capacity_generated, perbill_mul. change (10 ^ 9) with billion.
  rewrite (N.mul_comm a). set (x := k_per_token cfg * a).
  pose proof (N.div_mod x billion ltac:(done)) as Hd. pose proof (N.mod_lt x billion ltac:(done)) as Hl.
  change (billion / 2) with 500000000. change billion with 1000000000 in *.
  destruct (500000000 <? _) eqn:E; lia.
Qed.

Lemma stake_backed_lemma st valid s t amt st' :
  apply st (OpStake valid s t amt) = Ok st' ->
  exists actual c, cs_log st' = cs_log st ++ [(cs_epoch st, Staked s t actual c)] /\
    0 < actual <= amt /\ actual + k_min_token cfg <= token_balance st s /\
    active st' s = active st s + actual /\ valid t = true /\
    2 * (c * 10 ^ 9) <= 2 * (actual * k_per_token cfg) + 10 ^ 9 /\
    2 * (actual * k_per_token cfg) <= 2 * (c * 10 ^ 9) + 10 ^ 9 /\
    issued st' t = issued st t + c /\ remaining st' t = remaining st t + c /\
    tokens_at st' t = tokens_at st t + actual /\
    targeted st' s t = targeted st s t + actual /\ targeted_capacity st' s t = targeted_capacity st s t + c.
Proof.
  intros H. apply apply_effect in H. inversion H; subst; clear H.
  pose proof (ratio_bounds actual) as [? ?].
  eexists _, _. split; [done|]. split; [lia|]. split; [lia|].
  unfold active, issued, remaining, tokens_at, targeted, targeted_capacity; cbn [cs_staking cs_targets cs_cap].
  rewrite !lookup_insert; cbn [default tg_amount tg_capacity cd_remaining cd_tokens cd_issued].
  repeat (split; [done || lia|]). done.
Qed.

(** ** A payment *)
Lemma payment_lemma st m fee :
  let avail := if last_replenished st m <? cs_epoch st then issued st m else remaining st m in
  (is_ok (apply st (OpSpend m fee)) = true <-> is_Some (cs_cap st !! m) /\ fee <= avail) /\
  (forall st', apply st (OpSpend m fee) = Ok st' ->
     remaining st' m = avail - fee /\ issued st' m = issued st m /\ tokens_at st' m = tokens_at st m /\
     last_replenished st' m = N.max (last_replenished st m) (cs_epoch st) /\
     (forall m', m' <> m -> cs_cap st' !! m' = cs_cap st !! m') /\
     cs_log st' = cs_log st ++ [(cs_epoch st, CapacityWithdrawn m fee)] /\
     cs_staking st' = cs_staking st /\ cs_targets st' = cs_targets st /\ cs_unlocks st' = cs_unlocks st /\
     cs_freeze st' = cs_freeze st /\ cs_epoch st' = cs_epoch st).
Proof.
  cbn. unfold cap_spend, cap_can_replenish, cap_replenish_all_for, cap_deduct, cd_can_replenish, cd_deduct, chk_sub,
    last_replenished, issued, remaining, tokens_at.
  destruct (cs_cap st !! m) as [d|] eqn:E; cbn; [|split; [split; [rewrite ?E; done|intros [[] _]; done]|rewrite ?E; done]].
  destruct (cd_last d <? cs_epoch st) eqn:El; cbn; rewrite ?lookup_insert, ?E; cbn.
  - destruct (fee <=? cd_issued d) eqn:Ef; cbn; (split; [split; [intros; split; [done|lia]|intros [_ ?]; (done || lia)]|]); [|done].
    intros st' H; inv_ok. cbn. rewrite !lookup_insert. cbn. repeat split; try lia.
    intros m' Hm. by rewrite !lookup_insert_ne.
  - destruct (fee <=? cd_remaining d) eqn:Ef; cbn; (split; [split; [intros; split; [done|lia]|intros [_ ?]; (done || lia)]|]); [|done].
    intros st' H; inv_ok. cbn. rewrite !lookup_insert. cbn. repeat split; try lia.
    intros m' Hm. by rewrite !lookup_insert_ne.
Qed.

(** ** One target per staker *)
Definition single_inv (f : N -> N) (st : CapState) : Prop :=
  (forall s t tg, cs_targets st !! (s, t) = Some tg -> t = f s /\ cs_staking st !! s = Some (tg_amount tg)) /\
  (forall s a, cs_staking st !! s = Some a -> exists tg, cs_targets st !! (s, f s) = Some tg) /\
  (forall m, tokens_at st m = targeted_to st m).

Lemma single_inv_preserved f st op st' :
  (match op with OpStake _ s t _ => t = f s | _ => True end) ->
  tok_inv st -> single_inv f st -> cap_effect st op st' -> single_inv f st'.
Proof.
  intros Hop T (I1 & I2 & I3) He. destruct He; try done.
  - (* stake *) subst t. unfold single_inv, tokens_at, targeted_to, targeted, active in *; cbn in *.
    assert (Hamt : tg_amount (default tg_default (cs_targets st !! (s, f s))) = default 0 (cs_staking st !! s)).
    { destruct (cs_targets st !! (s, f s)) as [tg|] eqn:E; cbn.
      - by destruct (I1 _ _ _ E) as [_ ->].
      - destruct (cs_staking st !! s) eqn:E2; [|done]. destruct (I2 _ _ E2). congruence. }
    split; [|split].
    + intros s0 t0 tg Hl. destruct (decide ((s0, t0) = (s, f s))) as [[= -> ->]|Hn].
      * rewrite lookup_insert in Hl. rewrite lookup_insert. injection Hl as <-. cbn. split; [done|]. by rewrite Hamt.
      * rewrite lookup_insert_ne in Hl by congruence. destruct (I1 _ _ _ Hl) as [-> Hs].
        split; [done|]. rewrite lookup_insert_ne; [done|]. intros ->. done.
    + intros s0 a. destruct (decide (s0 = s)) as [->|Hn].
      * intros _. rewrite lookup_insert. eauto.
      * rewrite lookup_insert_ne by done. intros Hs. rewrite lookup_insert_ne by congruence. eauto.
    + intros m.
      destruct (cs_targets st !! (s, f s)) as [tg|] eqn:E; cbn.
      * pose proof (msum_insert (fun (k : N * N) t => if k.2 =? m then tg_amount t else 0) (cs_targets st) (s, f s)
          {| tg_amount := tg_amount tg + actual; tg_capacity := targeted_capacity st s (f s) + c |} tg E) as Hm.
        cbn in Hm. specialize (I3 m). destruct (N.eqb_spec (f s) m) as [<-|].
        -- rewrite lookup_insert; cbn. lia.
        -- rewrite lookup_insert_ne by done. lia.
      * rewrite msum_insert_new by done. cbn. specialize (I3 m). destruct (N.eqb_spec (f s) m) as [<-|].
        -- rewrite lookup_insert; cbn. lia.
        -- rewrite lookup_insert_ne by done. lia.
  - (* unstake *)
    destruct (I1 _ _ _ H2) as [-> Hs]. rewrite H1 in Hs. injection Hs as ->.
    assert (Ha' : tg_amount tg - actual = a') by lia. rewrite Ha'.
    unfold single_inv, tokens_at, targeted_to in *; cbn in *.
    split; [|split].
    + intros s0 t0 tg0 Hl. destruct (decide ((s0, t0) = (s, f s))) as [[= -> ->]|Hn].
      * destruct (N.eqb_spec a' 0); [by rewrite lookup_delete in Hl|].
        rewrite lookup_insert in Hl. rewrite lookup_insert. injection Hl as <-. split; [done|]. cbn. congruence.
      * assert (Hl0 : cs_targets st !! (s0, t0) = Some tg0).
        { destruct (N.eqb_spec a' 0); [rewrite lookup_delete_ne in Hl|rewrite lookup_insert_ne in Hl]; congruence. }
        destruct (I1 _ _ _ Hl0) as [-> Hs]. split; [done|]. assert (s0 <> s) by (intros ->; done).
        destruct (N.eqb_spec a' 0); [rewrite lookup_delete_ne|rewrite lookup_insert_ne]; done.
    + intros s0 a. destruct (decide (s0 = s)) as [->|Hn].
      * destruct (N.eqb_spec a' 0); [by rewrite lookup_delete|]. rewrite !lookup_insert. eauto.
      * destruct (N.eqb_spec a' 0); rewrite ?lookup_delete_ne, ?lookup_insert_ne by congruence; eauto.
    + intros m. specialize (I3 m).
      pose proof (msum_delete (fun (k : N * N) t => if k.2 =? m then tg_amount t else 0) _ _ _ H2) as Hd. cbn in Hd.
      assert (Hnew : msum (fun (k : N * N) t => if k.2 =? m then tg_amount t else 0)
               (if a' =? 0 then delete (s, f s) (cs_targets st)
                else <[(s, f s) := {| tg_amount := a'; tg_capacity := tg_capacity tg - c |}]> (cs_targets st)) =
               (if f s =? m then a' else 0) + msum (fun (k : N * N) t => if k.2 =? m then tg_amount t else 0) (delete (s, f s) (cs_targets st))).
      { destruct (N.eqb_spec a' 0) as [->|]; [destruct (f s =? m); lia|].
        rewrite <- insert_delete_insert, msum_insert_new by apply lookup_delete. done. }
      rewrite Hnew. destruct (N.eqb_spec (f s) m) as [<-|].
      * rewrite lookup_insert; cbn. rewrite H3 in I3; cbn in I3. lia.
      * rewrite lookup_insert_ne by done. lia.
  - (* spend *)
    unfold single_inv, tokens_at, targeted_to in *; cbn in *. do 2 (split; [done|]).
    intros k. rewrite <- I3. destruct (decide (k = m)) as [->|]; [by rewrite lookup_insert, H|by rewrite lookup_insert_ne].
  - unfold single_inv, tokens_at, targeted_to in *; cbn in *. do 2 (split; [done|]).
    intros k. rewrite <- I3. destruct (decide (k = m)) as [->|]; [by rewrite lookup_insert, H|by rewrite lookup_insert_ne].
  - destruct (oni st n) as [->| ->]; done.
Qed.

Lemma single_lemma f h m :
  one_target f h -> tokens_at (run cap_genesis h) m = targeted_to (run cap_genesis h) m.
Proof.
  intros Hf. assert (tok_inv (run cap_genesis h) /\ single_inv f (run cap_genesis h)) as [_ (_ & _ & ?)]; [|done].
  eapply (run_ind_in _ (fun st => tok_inv st /\ single_inv f st)); [exact Hf|..].
  - split; [exact (tok_inv_run [])|]. unfold single_inv; cbn. split; [|split].
    + intros *. by rewrite lookup_empty.
    + intros *. by rewrite lookup_empty.
    + intros k. unfold tokens_at, targeted_to; cbn. by rewrite lookup_empty, msum_empty.
  - intros s op s' Hop [HT HI] He. split; [by eapply tok_inv_preserved|].
    exact (single_inv_preserved f s op s' Hop HT HI He).
Qed.

(** ** Stake can always be recovered *)
Definition cover_inv (st : CapState) : Prop :=
  (forall s, active st s <= targeted_by st s) /\
  (forall s t tg, cs_targets st !! (s, t) = Some tg -> is_Some (cs_cap st !! t)).

Lemma cover_inv_preserved st op st' : cover_inv st -> cap_effect st op st' -> cover_inv st'.
Proof.
  intros (I1 & I2) He. destruct He; try done.
  - unfold cover_inv, active, targeted_by, targeted in *; cbn in *. split.
    + intros b. specialize (I1 b).
      set (g := fun (k : N * N) t => if k.1 =? b then tg_amount t else 0) in *.
      destruct (cs_targets st !! (s, t)) as [tg|] eqn:E; cbn.
      * pose proof (msum_insert g (cs_targets st) (s, t)
          {| tg_amount := tg_amount tg + actual; tg_capacity := targeted_capacity st s t + c |} tg E) as Hm.
        unfold g in Hm at 2 4; cbn in Hm. destruct (N.eqb_spec s b) as [->|].
        -- rewrite lookup_insert; cbn. lia.
        -- rewrite lookup_insert_ne by done. lia.
      * rewrite msum_insert_new by done. unfold g at 1; cbn. destruct (N.eqb_spec s b) as [->|].
        -- rewrite lookup_insert; cbn. lia.
        -- rewrite lookup_insert_ne by done. lia.
    + intros b u tg Hl. destruct (decide (u = t)) as [->|]; [rewrite lookup_insert; eauto|].
      rewrite lookup_insert_ne by done. rewrite lookup_insert_ne in Hl by congruence. eauto.
  - unfold cover_inv, active, targeted_by in *; cbn in *. split.
    + intros b. specialize (I1 b).
      set (g := fun (k : N * N) t => if k.1 =? b then tg_amount t else 0) in *.
      pose proof (msum_delete g _ _ _ H2) as Hd. unfold g in Hd at 2; cbn in Hd.
      assert (Hnew : msum g (if tg_amount tg - actual =? 0 then delete (s, t) (cs_targets st)
                else <[(s, t) := {| tg_amount := tg_amount tg - actual; tg_capacity := tg_capacity tg - c |}]> (cs_targets st)) =
               (if s =? b then tg_amount tg - actual else 0) + msum g (delete (s, t) (cs_targets st))).
      { destruct (N.eqb_spec (tg_amount tg - actual) 0) as [->|]; [destruct (s =? b); lia|].
        rewrite <- insert_delete_insert, msum_insert_new by apply lookup_delete. done. }
      rewrite Hnew. destruct (N.eqb_spec s b) as [->|].
      * rewrite H1 in I1; cbn in I1.
        destruct (N.eqb_spec a' 0) as [->|]; [rewrite lookup_delete|rewrite lookup_insert]; cbn; lia.
      * destruct (N.eqb_spec a' 0) as [->|]; [rewrite lookup_delete_ne by done|rewrite lookup_insert_ne by done]; lia.
    + intros b u tg0 Hl. destruct (decide (u = t)) as [->|]; [rewrite lookup_insert; eauto|].
      rewrite lookup_insert_ne by done.
      destruct (tg_amount tg - actual =? 0); [rewrite lookup_delete_ne in Hl by congruence|rewrite lookup_insert_ne in Hl by congruence]; eauto.
  - unfold cover_inv in *; cbn. split; [done|]. intros b u tg0 Hl. destruct (decide (u = m)) as [->|]; [rewrite lookup_insert; eauto|].
    rewrite lookup_insert_ne by done. eauto.
  - unfold cover_inv in *; cbn. split; [done|]. intros b u tg0 Hl. destruct (decide (u = m)) as [->|]; [rewrite lookup_insert; eauto|].
    rewrite lookup_insert_ne by done. eauto.
  - destruct (oni st n) as [->| ->]; done.
Qed.

Lemma cover_inv_run h : cover_inv (run cap_genesis h).
Proof.
  apply run_ind; [|apply cover_inv_preserved]. split.
  - intros s. unfold active, targeted_by; cbn. rewrite lookup_empty; cbn. lia.
  - intros *; cbn. by rewrite lookup_empty.
Qed.

Lemma unstake_ok st s t amt tg :
  0 < amt -> amt <= active st s -> cs_targets st !! (s, t) = Some tg -> is_Some (cs_cap st !! t) ->
  len (chunks st s) < k_max_chunks cfg ->
  exists st', apply st (OpUnstake s t amt) = Ok st'.
Proof.
  intros H0 Ha Ht [d Hd] Hc. cbn. unfold unstake. destruct (N.ltb_spec 0 amt); [|lia].
  unfold decrease_active_staking_balance. unfold active in Ha.
  destruct (cs_staking st !! s) as [a0|]; cbn in Ha; [|lia].
  destruct (N.leb_spec amt a0); [|lia]. destruct (sd_withdraw cfg a0 amt) as [na ac].
  unfold add_unlock_chunk; cbn. fold (chunks st s). destruct (N.ltb_spec (len (chunks st s)) (k_max_chunks cfg)); [|lia].
  unfold reduce_capacity; cbn. rewrite Ht, Hd. eauto.
Qed.

Lemma unstake_live_lemma h s :
  let st := run cap_genesis h in
  0 < active st s -> len (chunks st s) < k_max_chunks cfg ->
  exists t st', apply st (OpUnstake s t (active st s)) = Ok st' /\ active st' s = 0 /\
                unlocking st' s = unlocking st s + active st s.
Proof.
  intros st Ha Hc. destruct (cover_inv_run h) as [C1 C2]. fold st in C1, C2.
  assert (exists t tg, cs_targets st !! (s, t) = Some tg) as (t & tg & Ht).
  { specialize (C1 s). unfold targeted_by in C1.
    edestruct (msum_pos (fun (k : N * N) t => if k.1 =? s then tg_amount t else 0) (cs_targets st)) as ([k1 k2] & v & Hl & Hp); [lia|].
    cbn in Hp. destruct (N.eqb_spec k1 s) as [->|]; [eauto|lia]. }
  destruct (unstake_ok st s t (active st s) tg) as [st' Hs]; try done; [by eapply C2|].
  exists t, st'. split; [done|]. apply apply_effect in Hs.
  assert (cs_staking st !! s = Some (active st s)) as Es.
  { unfold active in *. destruct (cs_staking st !! s); cbn in *; [done|lia]. }
  inversion Hs; subst; clear Hs. rewrite Es in *.
  assert (a0 = active st s) as -> by congruence.
  assert (a' = 0 /\ actual = active st s) as [-> ->] by lia.
  split.
  - unfold active at 1; cbn. by rewrite N.eqb_refl, lookup_delete.
  - set (v := active st s). set (l := chunks st s). unfold unlocking at 1, chunks at 1; cbn.
    rewrite lookup_insert; cbn. rewrite values_app, values_cons. unfold unlocking. fold l. cbn. unfold values at 2; cbn. lia.
Qed.

(** ** Reduction *)
Lemma div_up_spec a b : 0 < b -> is_ceil (div_up a b) a b.
Proof.
  intros Hb. unfold div_up, is_ceil.
  pose proof (N.div_mod (a + (b - 1)) b ltac:(lia)). pose proof (N.mod_lt (a + (b - 1)) b ltac:(lia)).
  split; [nia|]. intros y Hy.
  assert ((a + (b - 1)) / b < y + 1); [|lia]. apply N.div_lt_upper_bound; nia.
Qed.

Lemma perbill_le p q : perbill_from_rational p q <= billion.
Proof.
  unfold perbill_from_rational. destruct (N.eqb_spec q 0); [done|]. destruct (N.ltb_spec q p); [done|]. cbn [orb].
  set (f := N.max 1 (div_up q billion)).
  assert (0 < f) by lia. assert (p / f <= q / f) by (apply N.div_le_mono; lia).
  destruct (N.eq_dec (q / f) 0) as [E|E].
  - rewrite E. destruct (p / f * billion); cbn; unfold billion; lia.
  - apply N.div_le_upper_bound; [done|]. nia.
Qed.

Lemma reduction_le p q i : calculate_capacity_reduction p q i <= i.
Proof.
  unfold calculate_capacity_reduction, perbill_mul_ceil.
  apply (div_up_spec _ billion); [unfold billion; lia|]. pose proof (perbill_le p q). nia.
Qed.

Lemma reduction_full q i : calculate_capacity_reduction q q i = i.
Proof.
  apply N.le_antisymm; [apply reduction_le|].
  unfold calculate_capacity_reduction, perbill_mul_ceil.
  assert (Hp : perbill_from_rational q q = billion).
  { unfold perbill_from_rational. destruct (N.eqb_spec q 0); [done|]. rewrite N.ltb_irrefl. cbn [orb].
    set (f := N.max 1 (div_up q billion)).
    assert (0 < f) by lia.
    assert (f <= q).
    { apply N.max_lub; [lia|]. apply (div_up_spec q billion); [done|]. unfold billion; lia. }
    assert (0 < q / f) by (apply N.div_str_pos; lia).
    rewrite N.mul_comm. apply N.div_mul. lia. }
  rewrite Hp. destruct (div_up_spec (billion * i) billion) as [Hc _]; [done|]. unfold billion in *. lia.
Qed.

(** Exactly the rounded-up share when the total fits the accuracy of Perbill. *)
Lemma reduction_small p q i :
  0 < q -> p <= q -> q <= billion ->
  calculate_capacity_reduction p q i = div_up (p * billion / q * i) billion.
Proof.
  intros Hq Hp Hb. unfold calculate_capacity_reduction, perbill_mul_ceil, perbill_from_rational.
  destruct (N.eqb_spec q 0); [lia|]. destruct (N.ltb_spec q p); [lia|]. cbn [orb].
  assert (N.max 1 (div_up q billion) = 1) as ->.
  { apply N.max_l. apply (div_up_spec q billion); [done|]. lia. }
  by rewrite !N.div_1_r.
Qed.

Lemma part_arith (B p q f a b ra rb part rc : N) :
  0 < B -> p <= q -> 0 < f -> f <= q -> B * f <= q + B -> (q <= B -> f = 1) ->
  p = f * a + ra -> ra < f -> q = f * b + rb -> rb < f -> 0 < b -> a <= b ->
  a * B = b * part + rc -> rc < b -> part <= B ->
  part * q <= B * p + 2 * q /\ B * p <= part * q + 2 * q.
Proof.
  intros HB Hp Hf0 Hf1 Hf2 Hf3 Ea La Eb Lb Hb0 Hab Ec Lc Hple.
  destruct (N.le_gt_cases q B) as [Hs|Hs].
  - specialize (Hf3 Hs). subst f. assert (ra = 0) by lia. assert (rb = 0) by lia. subst ra rb.
    assert (p = a) by lia. assert (q = b) by lia. subst p q. lia.
  - assert (Hbf : B * f <= 2 * q) by lia. split.
    + assert (part * q <= part * (b * f) + part * f).
      { rewrite Eb, <- N.mul_add_distr_l. apply N.mul_le_mono_l. lia. }
      assert (part * b * f <= a * B * f) by (apply N.mul_le_mono_r; lia).
      assert (a * B * f <= B * p) by (rewrite Ea; lia).
      assert (part * f <= B * f) by (apply N.mul_le_mono_r; lia). lia.
    + assert (a * B * f <= (part + 1) * b * f) by (apply N.mul_le_mono_r; lia).
      assert ((part + 1) * (b * f) <= (part + 1) * q) by (apply N.mul_le_mono_l; lia).
      assert (B * p <= B * (f * a + (f - 1))) by (apply N.mul_le_mono_l; lia).
      assert (B * (f - 1) <= q) by (rewrite N.mul_sub_distr_l; lia).
      rewrite N.mul_add_distr_l in *. lia.
Qed.
Lemma red_arith (B p q i part c : N) :
  part * q <= B * p + 2 * q -> B * p <= part * q + 2 * q ->
  part * i <= c * B -> c * B <= part * i + B ->
  c * q * B <= i * p * B + 2 * i * q + B * q /\ i * p * B <= c * q * B + 2 * i * q.
Proof.
  intros P1 P2 D1 D2. 
  apply (N.mul_le_mono_r _ _ i) in P1, P2. apply (N.mul_le_mono_r _ _ q) in D1, D2. split; lia.
Qed.

Lemma part_bounds p q :
  0 < q -> p <= q ->
  let part := perbill_from_rational p q in
  part * q <= billion * p + 2 * q /\ billion * p <= part * q + 2 * q.
Proof.
  intros Hq Hp. cbn zeta. unfold perbill_from_rational.
  destruct (N.eqb_spec q 0); [lia|]. destruct (N.ltb_spec q p); [lia|]. cbn [orb].
  set (f := N.max 1 (div_up q billion)).
  assert (Hf : 0 < f /\ f <= q /\ billion * f <= q + billion).
  { destruct (div_up_spec q billion) as [D1 D2]; [done|].
    assert (div_up q billion <= q) by (apply D2; unfold billion; lia).
    assert (billion * div_up q billion <= q + billion).
    { unfold div_up. pose proof (N.mul_div_le (q + (billion - 1)) billion ltac:(done)). lia. }
    unfold f. unfold billion in *. lia. }
  destruct Hf as (Hf0 & Hf1 & Hf2).
  assert (Hf3 : q <= billion -> f = 1).
  { intros. apply N.max_l. apply (div_up_spec q billion); [done|]. lia. }
  pose proof (N.div_mod p f ltac:(lia)) as Ea. pose proof (N.mod_lt p f ltac:(lia)) as La.
  pose proof (N.div_mod q f ltac:(lia)) as Eb. pose proof (N.mod_lt q f ltac:(lia)) as Lb.
  assert (Hb0 : 0 < q / f) by (apply N.div_str_pos; lia).
  assert (Hab : p / f <= q / f) by (apply N.div_le_mono; lia).
  apply (part_arith billion p q f (p / f) (q / f) (p mod f) (q mod f) _ ((p / f * billion) mod (q / f))); try done.
  - apply (N.div_mod (p / f * billion) (q / f)). lia.
  - apply N.mod_lt. lia.
  - apply N.div_le_upper_bound; [lia|]. apply N.mul_le_mono_r. done.
Qed.

Lemma reduction_bounds p q i :
  0 < q -> p <= q ->
  let c := calculate_capacity_reduction p q i in
  c * q * billion <= i * p * billion + 2 * i * q + billion * q /\
  i * p * billion <= c * q * billion + 2 * i * q.
Proof.
  intros Hq Hp. cbn zeta. unfold calculate_capacity_reduction, perbill_mul_ceil.
  destruct (part_bounds p q Hq Hp) as [P1 P2]. set (part := perbill_from_rational p q) in *.
  destruct (div_up_spec (part * i) billion) as [D1 _]; [done|].
  assert (D2 : div_up (part * i) billion * billion <= part * i + billion).
  { unfold div_up. pose proof (N.mul_div_le (part * i + (billion - 1)) billion ltac:(done)). lia. }
  by apply (red_arith billion p q i part).
Qed.

Lemma share_lemma p q i :
  0 < q -> p <= q ->
  let c := calculate_capacity_reduction p q i in
  c <= i /\ (p = q -> c = i) /\
  c * q * 10 ^ 9 <= i * p * 10 ^ 9 + 2 * i * q + 10 ^ 9 * q /\
  i * p * 10 ^ 9 <= c * q * 10 ^ 9 + 2 * i * q.
Proof.
  intros Hq Hp c. split; [apply reduction_le|]. split; [intros ->; apply reduction_full|].
  exact (reduction_bounds p q i Hq Hp).
Qed.

Lemma unstake_reduces_lemma st s t amt st' :
  apply st (OpUnstake s t amt) = Ok st' ->
  exists actual c,
    cs_log st' = cs_log st ++ [(cs_epoch st, UnStaked s t actual c)] /\
    actual = active st s - active st' s /\
    issued st' t = issued st t - c /\ remaining st' t = remaining st t - c /\
    (targeted st s t = actual -> c = targeted_capacity st s t /\ targeted st' s t = 0 /\ targeted_capacity st' s t = 0) /\
    (targeted st s t <> actual -> c = calculate_capacity_reduction actual (tokens_at st t) (issued st t) /\ c <= issued st t).
Proof.
  intros H. apply apply_effect in H. inversion H; subst; clear H.
  assert (Htg : targeted st s t = tg_amount tg /\ targeted_capacity st s t = tg_capacity tg).
  { unfold targeted, targeted_capacity. by rw_lookup. }
  destruct Htg as [Htg1 Htg2].
  assert (Hd : tokens_at st t = cd_tokens d /\ issued st t = cd_issued d /\ remaining st t = cd_remaining d).
  { unfold tokens_at, issued, remaining. by rw_lookup. }
  destruct Hd as (Hd1 & Hd2 & Hd3). rewrite Htg1, Htg2, Hd1, Hd2, Hd3.
  eexists _, _. split; [done|]. split.
  { unfold active; cbn. rw_lookup. cbn. destruct (N.eqb_spec a' 0) as [->|]; [rewrite lookup_delete|rewrite lookup_insert]; cbn; lia. }
  split; [unfold issued; cbn; by rewrite lookup_insert|].
  split; [unfold remaining; cbn; by rewrite lookup_insert|]. split.
  - intros <-. rewrite N.eqb_refl. split; [done|]. unfold targeted, targeted_capacity; cbn.
    rewrite N.sub_diag. by rewrite N.eqb_refl, lookup_delete.
  - intros Hn. destruct (N.eqb_spec (tg_amount tg) actual); [done|]. split; [done|]. apply reduction_le.
Qed.

End cap.

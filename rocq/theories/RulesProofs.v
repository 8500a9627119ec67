(** Proof of property C150. *)
From Verif Require Import Prelude CommonTypes SigModel MsaModel CapModel TrModel TrSpec TrProofs StModel HModel ScModel MgModel FeeModel RtModel.
From Verif Require Import MsaSpec RtSpec RtProofs RtProj ConsentSpec ConsentProofs SpendSpec SpendProofs RulesSpec.

(** ** The pallets *)
Lemma add_name_max st n id x : add_name st n id = Ok x -> sc_max_bytes x = sc_max_bytes st.
Proof. unfold add_name. intros H. destruct (version_add _ _); [|done]. by injection H as <-. Qed.
Lemma create_max cfg st k m mt l s n x : create cfg st k m mt l s n = Ok x -> sc_max_bytes x = sc_max_bytes st.
Proof.
  unfold create, create_schema_for. intros H. destruct (sf_valid_model _ _ _); [|done]. destruct (_ <=? _); [|done]. destruct (_ <=? _); [|done].
  destruct (_ || _); [|done]. destruct (match n with Some _ => _ | None => _ end) as [n'|]; [|done].
  unfold add_schema in H. destruct (get_next_schema_id st) as [id|]; [|done].
  destruct n' as [n'|].
  - destruct (add_name st n' id) as [st1|] eqn:E; [|done]. injection H as <-. cbn. by eapply add_name_max.
  - injection H as <-. done.
Qed.
Lemma sc_max cfg st o ok c x : sc_dispatch cfg st o ok c = Ok x ->
  sc_max_bytes x = sc_max_bytes st \/ exists n, c = SetMaxSchemaModelBytes n /\ o = ScRoot /\ sc_max_bytes x = n.
Proof.
  unfold sc_dispatch. intros H. destruct (args_ok _ c); [|done].
  destruct c; cbn in H;
    repeat match type of H with
           | context [ensure_signed ?o] => destruct (ensure_signed o); [|done]
           | context [governance ?o] => destruct (governance o); [|done]
           | context [parse_and_verify ?a ?b ?c] => destruct (parse_and_verify a b c); [|done]
           | context [if ok then _ else _] => destruct ok; [|done]
           end;
    try (left; by eapply create_max); try (injection H as <-; left; done).
  - right. destruct o; try done. destruct (_ <=? _); [|done]. injection H as <-. by eexists.
  - destruct (add_name _ _ _) eqn:E; [|done]. injection H as <-. left. cbn. by eapply add_name_max.
Qed.

Lemma retain_in l : forall now k, retain_frozen l now = Some k ->
  (forall e x, e ∈ l -> sc_frozen e now = Some x -> x <> 0 -> e ∈ k) /\ (forall e, e ∈ k -> e ∈ l).
Proof.
  induction l as [|s l IH]; intros now k H; cbn in H; [injection H as <-; split; [intros ? ? E; by apply elem_of_nil in E|done]|].
  destruct (sc_frozen s now) as [y|] eqn:Ey; [|done]. destruct (retain_frozen l now) as [k'|] eqn:Ek; [|done]. injection H as <-.
  destruct (IH now k' Ek) as [I1 I2]. split.
  - intros e x He Hx Hn. apply elem_of_cons in He as [->|He].
    + rewrite Ey in Hx. injection Hx as ->. destruct (N.eqb_spec x 0); [done|by left].
    + specialize (I1 e x He Hx Hn). destruct (y =? 0); [done|by right].
  - intros e He. destruct (y =? 0); [right; by apply I2|]. apply elem_of_cons in He as [->|He]; [by left|right; by apply I2].
Qed.
(** [l'] has all of [l] that is not over, and nothing else, besides what [P] allows. *)
Definition thinned (now : N) (P : Sched -> Prop) (l l' : list Sched) : Prop :=
  (forall e x, e ∈ l -> sc_frozen e now = Some x -> x <> 0 -> e ∈ l') /\ (forall e, e ∈ l' -> e ∈ l \/ P e).
Lemma thinned_refl now P l : thinned now P l l.
Proof. split; [done|by left]. Qed.
Lemma thinned_trans now (P Q : Sched -> Prop) l1 l2 l3 : thinned now P l1 l2 -> thinned now Q l2 l3 -> thinned now (fun e => P e \/ Q e) l1 l3.
Proof.
  intros [A B] [C D]. split; [intros e x H1 H2 H3; eapply C; [eapply A|..]; done|].
  intros e H. apply D in H as [H|H]; [apply B in H as [H|H]; auto|auto].
Qed.
Lemma thinned_weaken now (P Q : Sched -> Prop) l l' : (forall e, P e -> Q e) -> thinned now P l l' -> thinned now Q l l'.
Proof. intros H [A B]. split; [exact A|]. intros e He. apply B in He as [He|He]; auto. Qed.
Lemma prune_thins st who now st1 z a : prune_and_get_frozen_balance st who now = Ok (st1, z) ->
  thinned now (fun _ => False) (t_schedules st a) (t_schedules st1 a).
Proof.
  unfold prune_and_get_frozen_balance, prune_schedules_for. intros H.
  destruct (retain_frozen (t_schedules st who) now) as [k|] eqn:E; [|done]. apply retain_in in E as [E1 E2].
  assert (F : forall st', (forall b, b <> who -> t_schedules st' b = t_schedules st b) -> t_schedules st' who = k ->
            thinned now (fun _ => False) (t_schedules st a) (t_schedules st' a)).
  { intros st' F1 F2. destruct (decide (a = who)) as [->|Hne]; [|rewrite F1 by done; apply thinned_refl]. rewrite F2. split; [done|]. intros e He. left. auto. }
  destruct k as [|e k]; cbn in H.
  - injection H as <- _. apply F; unfold t_schedules; cbn; [intros b Hb; by rewrite lookup_delete_ne|by rewrite lookup_delete].
  - destruct (sc_frozen e now); [|done]. destruct (fold_frozen _ _ _); [|done]. injection H as <- _.
    apply F; unfold t_schedules; cbn; [intros b Hb; by rewrite lookup_insert_ne|by rewrite lookup_insert].
Qed.
Lemma claim_thins st who now st' a : TrModel.do_claim st who now = Ok st' -> thinned now (fun _ => False) (t_schedules st a) (t_schedules st' a).
Proof.
  unfold TrModel.do_claim. intros H. destruct (prune_and_get_frozen_balance _ _ _) as [[st1 z]|] eqn:E; [|done]. apply (prune_thins _ _ _ _ _ a) in E.
  destruct (z =? 0); injection H as <-; exact E.
Qed.
Lemma transfer_thins cfg st now ok from to s st' a : t_call_transfer cfg st now ok from to s = Ok st' ->
  thinned now (fun e => a = to /\ e = s) (t_schedules st a) (t_schedules st' a).
Proof.
  unfold t_call_transfer. intros H. destruct (if to =? from then _ else _); [|done].
  destruct (do_transfer _ _ _ _ _ _ _) as [st1|] eqn:E; [|done]. injection H as <-. change (t_schedules _ a) with (t_schedules st1 a) at 2.
  unfold do_transfer in E. destruct (ensure_valid_release_schedule _ _); [|done].
  destruct (prune_and_get_frozen_balance _ _ _) as [[st2 z]|] eqn:E1; [|done]. destruct (chk_add _ _ _); [|done].
  destruct (t_transfer _ _ _ _ _ _) as [st3|] eqn:E2; [|done]. destruct (_ <? _); [|done]. injection E as <-.
  assert (E3 : tr_sched st3 = tr_sched st2).
  { unfold t_transfer in E2. destruct ok; [|done]. destruct (_ <=? _); [|done]. destruct (_ =? _); by injection E2 as <-. }
  eapply thinned_weaken; [|eapply thinned_trans; [exact (prune_thins _ _ _ _ _ a E1)|]].
  - cbn. intros e [[]|He]. exact He.
  - unfold t_schedules. cbn. rewrite E3. destruct (decide (a = to)) as [->|Hne].
    + rewrite lookup_insert. cbn. split; [intros e x He _ _; apply elem_of_app; by left|]. intros e He. apply elem_of_app in He as [He|He]; [by left|].
      apply elem_of_list_singleton in He. by right.
    + rewrite lookup_insert_ne by done. apply thinned_refl.
Qed.

(** ** Calls *)
Section rules.
Variable cfg : RtCfg.

Definition same (s s' : RtState) : Prop :=
  epoch_length s' = epoch_length s /\ longest_model s' = longest_model s /\ rs_relay s' = rs_relay s.
Definition still (s s' : RtState) : Prop := same s s' /\ tr_sched (rs_tr s') = tr_sched (rs_tr s).
Lemma still_refl s : still s s. Proof. done. Qed.
Lemma still_trans a b c : still a b -> still b c -> still a c.
Proof. unfold still, same. intros ((-> & -> & ->) & ->) ((-> & -> & ->) & ->). done. Qed.
Lemma still_nonce s n : still s (up_nonce_ s n). Proof. done. Qed.
Lemma still_spend s m f x : cap_spend (rs_cap s) m f = Ok x -> still s (up_cap_ s x).
Proof.
  intros H. split; [|done]. split; [|done]. cbn. unfold cap_spend, cap_replenish_all_for, cap_deduct in H. unfold epoch_length; cbn.
  destruct (cap_can_replenish _ m).
  - destruct (cs_cap (rs_cap s) !! m); [|done]. cbn in H. rewrite lookup_insert in H. destruct (cd_deduct _ _); [|done]. by injection H as <-.
  - destruct (cs_cap (rs_cap s) !! m); [|done]. destruct (cd_deduct _ _); [|done]. by injection H as <-.
Qed.
Lemma still_debit s k w a x : token_debit cfg s k w a = Some x -> still s x.
Proof. intros H. apply debit_same in H as [-> _]. done. Qed.

Lemma stake_len st v w t a x : stake (r_cap cfg) st v w t a = Ok x -> cs_epoch_len x = cs_epoch_len st.
Proof.
  unfold stake, increase_stake_and_issue_capacity, set_staking_account_and_lock. intros H. destruct (ensure_can_stake _ _ _ _ _ _) as [[act amt]|]; [|done].
  destruct (chk_add u128_max amt act); [|done]. destruct (tg_deposit _ _ _); [|done]. destruct (cd_deposit _ _ _); [|done].
  destruct (chk_add _ _ _); [|done]. by injection H as <-.
Qed.
Lemma unstake_len st w t a x : unstake (r_cap cfg) st w t a = Ok x -> cs_epoch_len x = cs_epoch_len st.
Proof.
  unfold unstake, decrease_active_staking_balance, add_unlock_chunk, reduce_capacity. intros H. destruct (0 <? a); [|done].
  destruct (cs_staking st !! w); [|done]. destruct (a <=? _); [|done]. destruct (sd_withdraw _ _ _). destruct (_ <? _); [|done].
  destruct (cs_targets _ !! _); [|done]. destruct (cs_cap _ !! _); [|done]. by injection H as <-.
Qed.
Lemma withdraw_len st w x : withdraw_unstaked st w = Ok x -> cs_epoch_len x = cs_epoch_len st.
Proof.
  unfold withdraw_unstaked. intros H. destruct (cs_unlocks st !! w); [|done]. destruct (chunks_reap _ _). destruct (negb _); [|done].
  by injection H as <-.
Qed.
Definition moves (s s' : RtState) (P : N -> Sched -> Prop) : Prop := same s s' /\ forall a, thinned (rs_relay s) (P a) (vesting s a) (vesting s' a).
Lemma still_moves s s' P : still s s' -> moves s s' P.
Proof. intros [A B]. split; [exact A|]. intros a. unfold vesting, t_schedules. rewrite B. apply thinned_refl. Qed.
Lemma moves_trans a b c (P Q : N -> Sched -> Prop) : moves a b P -> moves b c Q -> moves a c (fun w e => P w e \/ Q w e).
Proof.
  intros [(A1 & A2 & A3) A] [(B1 & B2 & B3) B]. split; [unfold same; by rewrite B1, B2, B3|]. intros w. eapply thinned_trans; [exact (A w)|].
  rewrite <- A3. exact (B w).
Qed.
Lemma moves_weaken a b (P Q : N -> Sched -> Prop) : (forall w e, P w e -> Q w e) -> moves a b P -> moves a b Q.
Proof. intros H [A B]. split; [exact A|]. intros w. eapply thinned_weaken; [|exact (B w)]. apply H. Qed.

Lemma deed_rules c o s s' : plain c -> rt_dispatch cfg c o s = Ok s' -> moves s s' (fun a e => c = RTime (VTransfer a e)).
Proof.
  intros Hp H. pose proof (leaf_inv _ _ _ _ _ Hp H) as [_ L].
  destruct c as [c|c|c|c|c|c|c|c| | | | | | |]; try done; cbn beta iota in L.
  - destruct L as (x & Hd & ->). first [by apply still_moves|
      apply still_moves; split; [|done]; split; [done|]; split; [|done]; unfold longest_model; cbn;
      apply sc_max in Hd as [Hd|(n & _ & E & _)]; [exact Hd|discriminate E]].
  - destruct L as (x & Hd & ->). first [by apply still_moves|
      apply still_moves; split; [|done]; split; [done|]; split; [|done]; unfold longest_model; cbn;
      apply sc_max in Hd as [Hd|(n & _ & E & _)]; [exact Hd|discriminate E]].
  - destruct L as (x & Hd & ->). first [by apply still_moves|
      apply still_moves; split; [|done]; split; [done|]; split; [|done]; unfold longest_model; cbn;
      apply sc_max in Hd as [Hd|(n & _ & E & _)]; [exact Hd|discriminate E]].
  - destruct L as (x & Hd & ->). first [by apply still_moves|
      apply still_moves; split; [|done]; split; [done|]; split; [|done]; unfold longest_model; cbn;
      apply sc_max in Hd as [Hd|(n & _ & E & _)]; [exact Hd|discriminate E]].
  - destruct L as (x & Hd & ->). first [by apply still_moves|
      apply still_moves; split; [|done]; split; [done|]; split; [|done]; unfold longest_model; cbn;
      apply sc_max in Hd as [Hd|(n & _ & E & _)]; [exact Hd|discriminate E]].
  - apply still_moves. destruct c as [t a|t a| |]; cbn [cap_dispatch] in L; [| | |done]; apply lift_ok in L as (x & Hd & E); injection E as <-;
      (split; [|done]); (split; [|done]); unfold epoch_length; cbn; [apply stake_len in Hd|apply unstake_len in Hd|apply withdraw_len in Hd]; exact Hd.
  - destruct c as [|to sch|wh l|wh]; cbn [time_dispatch] in L; [| |done|].
    + apply lift_ok in L as (x & Hx & E); injection E as <-. split; [done|]. intros a. apply (claim_thins _ _ _ _ a) in Hx.
      eapply thinned_weaken; [|exact Hx]. done.
    + apply lift_ok in L as (x & Hx & E). destruct (match sc_total sch with Some a => _ | None => _ end) as [s1|] eqn:Em; [|done]. injection E as <-.
      destruct (sc_total sch) as [b|]; [|done]. apply transfer_same in Em as [-> _]. split; [done|]. intros a.
      apply (transfer_thins _ _ _ _ _ _ _ _ a) in Hx. eapply thinned_weaken; [|exact Hx]. cbn. by intros e [-> ->].
    + apply lift_ok in L as (x & Hx & E); injection E as <-. split; [done|]. intros a. apply (claim_thins _ _ _ _ a) in Hx.
      eapply thinned_weaken; [|exact Hx]. done.
  - apply still_moves. destruct c; cbn [bal_dispatch] in L; (apply transfer_same in L as [-> _]; done).
  - apply still_moves. by rewrite L.
  - subst. by apply still_moves.
Qed.
Definition sent (ds : list Deed) (a : N) (e : Sched) : Prop := exists g, g ∈ ds /\ what g = RTime (VTransfer a e).
Lemma acts_rules s ds s' : acts cfg s ds s' -> moves s s' (sent ds).
Proof.
  induction 1 as [s|s c o s1 ds s' H1 H2 _ IH]; [by apply still_moves|].
  eapply moves_weaken; [|eapply moves_trans; [exact (deed_rules _ _ _ _ H1 H2)|exact IH]].
  intros w e [->|(g & Hg & He)]; [eexists; split; [by left|done]|exists g; split; [by right|done]].
Qed.

(** ** Steps *)
Lemma step_rules s x :
  match x with
  | SBlock r => epoch_length (rt_step cfg s x) = epoch_length s /\ longest_model (rt_step cfg s x) = longest_model s
                /\ (forall a, vesting (rt_step cfg s x) a = vesting s a) /\ rs_relay (rt_step cfg s x) = r
  | STx _ | SPasskey _ => moves s (rt_step cfg s x) (sent (step_deeds cfg s x))
  | SGov c =>
      (epoch_length (rt_step cfg s x) = epoch_length s \/ c = GEpochLength (epoch_length (rt_step cfg s x)))
      /\ (longest_model (rt_step cfg s x) = longest_model s \/ c = GSchemas true (SetMaxSchemaModelBytes (longest_model (rt_step cfg s x))))
      /\ (forall a, vesting (rt_step cfg s x) a = vesting s a \/ c = GSchedules a (vesting (rt_step cfg s x) a))
      /\ rs_relay (rt_step cfg s x) = rs_relay s
  end.
Proof.
  destruct x as [r|t|p|c]; cbn [step_deeds rt_step].
  - unfold epoch_length, longest_model, vesting. cbn. unfold on_initialize. by destruct (_ <=? _).
  - unfold tx_apply. destruct (check_nonce _ _ _ _) as [s1|] eqn:E1; [|by apply still_moves].
    destruct (withdraw_fee _ _ _ _ _ _) as [s2|] eqn:E2; [|by apply still_moves]. destruct (free_use _ _ _); [|by apply still_moves].
    assert (Q : still s s2).
    { eapply still_trans; [eapply (check_rel still); eauto using still_refl, still_nonce|].
      eapply (fee_rel cfg still); eauto using still_refl, still_spend, still_debit. }
    unfold run_call. destruct (rt_dispatch _ _ _ _) as [s3|] eqn:E4; [|by apply still_moves].
    apply deeds_acts, acts_rules in E4. eapply moves_weaken; [|eapply moves_trans; [exact (still_moves _ _ (fun _ _ => False) Q)|exact E4]].
    intros w e [[]|He]. exact He.
  - apply still_moves. unfold passkey_apply. destruct (negb _); [|done]. destruct (passkey_filter _) eqn:Ef; [|done].
    destruct (r_verify _ _ _ _); [|done]. destruct (check_nonce _ _ _ _) as [s1|] eqn:E1; [|done].
    destruct (withdraw_token_fee _ _ _ _ _ _) as [s2|] eqn:E2; [|done].
    assert (Q : still s s2).
    { eapply still_trans; [eapply (check_rel still); eauto using still_refl, still_nonce|].
      eapply (token_fee_rel cfg still); eauto using still_refl, still_debit. }
    unfold run_call. destruct (rt_dispatch _ _ _ _) as [s3|] eqn:E4; [|done].
    assert (plain (pk_call p)) by (by destruct (pk_call p)).
    apply leaf_inv in E4 as [_ E4]; [|done]. destruct (pk_call p) as [| | | | | | |c| | | | | | |]; try done.
    eapply still_trans; [exact Q|]. destruct c; cbn [bal_dispatch] in E4; apply transfer_same in E4 as [-> _]; done.
  - destruct (gov_apply cfg s c) as [s1|] eqn:E; [|cbn; auto].
    destruct c as [k n|root c|n|who l]; cbn [gov_apply] in E; apply lift_ok in E as (y & H & E); injection E as <-.
    + cbn. auto.
    + split; [by left|]. split; [|split; [by left|done]]. apply sc_max in H as [H|(n & -> & Ho & H)]; [by left|]. right.
      destruct root; [|done]. unfold longest_model. cbn. by rewrite H.
    + split; [|split; [by left|split; [by left|done]]]. unfold set_epoch_length in H. destruct (_ <=? _); [|done]. injection H as <-. by right.
    + split; [by left|]. split; [by left|]. split; [|done]. intros a. unfold vesting, t_schedules. cbn.
      unfold do_update_release_schedules in H. destruct (_ <=? _); [|done]. destruct l as [|e l].
      * injection H as <-. cbn. destruct (decide (a = who)) as [->|Hne]; [right; by rewrite lookup_delete|left; by rewrite lookup_delete_ne].
      * destruct (fold_valid _ _ _); [|done]. destruct (_ <=? _); [|done]. injection H as <-. cbn.
        destruct (decide (a = who)) as [->|Hne]; [right; by rewrite lookup_insert|left; by rewrite lookup_insert_ne].
Qed.

(** ** Histories *)
Lemma rules_run h : forall s,
  (epoch_length (rt_run cfg s h) = epoch_length s \/ SGov (GEpochLength (epoch_length (rt_run cfg s h))) ∈ h)
  /\ (longest_model (rt_run cfg s h) = longest_model s \/ SGov (GSchemas true (SetMaxSchemaModelBytes (longest_model (rt_run cfg s h)))) ∈ h).
Proof.
  induction h as [|x h IH]; intros s; [by split; left|]. change (rt_run cfg s (x :: h)) with (rt_run cfg (rt_step cfg s x) h).
  pose proof (step_rules s x) as Hx. destruct (IH (rt_step cfg s x)) as [A B].
  assert (C : (epoch_length (rt_step cfg s x) = epoch_length s \/ x = SGov (GEpochLength (epoch_length (rt_step cfg s x))))
            /\ (longest_model (rt_step cfg s x) = longest_model s \/ x = SGov (GSchemas true (SetMaxSchemaModelBytes (longest_model (rt_step cfg s x)))))).
  { destruct x as [r|t|p|c].
    - destruct Hx as (H1 & H2 & _). auto.
    - destruct Hx as [(H1 & H2 & _) _]. auto.
    - destruct Hx as [(H1 & H2 & _) _]. auto.
    - destruct Hx as (H1 & H2 & _). split; [destruct H1 as [H1|H1]|destruct H2 as [H2|H2]]; auto; right; congruence. }
  destruct C as [C D]. split.
  - destruct A as [A|A]; [|right; by right]. rewrite A. destruct C as [C|C]; [by left|]. right. rewrite <- C. by left.
  - destruct B as [B|B]; [|right; by right]. rewrite B. destruct D as [D|D]; [by left|]. right. rewrite <- D. by left.
Qed.
Lemma new_run h : forall s a e, e ∈ vesting (rt_run cfg s h) a ->
  e ∈ vesting s a \/ (exists g, g ∈ all_deeds cfg s h /\ what g = RTime (VTransfer a e)) \/ exists l, SGov (GSchedules a l) ∈ h /\ e ∈ l.
Proof.
  induction h as [|x h IH]; intros s a e He; [by left|]. change (rt_run cfg s (x :: h)) with (rt_run cfg (rt_step cfg s x) h) in He.
  destruct (IH _ _ _ He) as [H|[(g & H1 & H2)|(l & H1 & H2)]].
  - pose proof (step_rules s x) as Hx. destruct x as [r|t|p|c].
    + destruct Hx as (_ & _ & E & _). rewrite E in H. by left.
    + destruct Hx as [_ Hx]. apply Hx in H as [H|(g & H1 & H2)]; [by left|]. right; left. exists g. split; [|done]. cbn [all_deeds]. apply elem_of_app. by left.
    + destruct Hx as [_ Hx]. apply Hx in H as [H|(g & H1 & H2)]; [by left|]. right; left. exists g. split; [|done]. cbn [all_deeds]. apply elem_of_app. by left.
    + destruct Hx as (_ & _ & E & _). destruct (E a) as [E1|E1]; [rewrite E1 in H; by left|]. right; right. eexists. split; [|exact H]. rewrite <- E1. by left.
  - right; left. exists g. split; [|done]. cbn [all_deeds]. apply elem_of_app. by right.
  - right; right. exists l. split; [by right|done].
Qed.
Lemma relay_run h : forall s, relays_from (rs_relay s) h -> rs_relay s <= rs_relay (rt_run cfg s h).
Proof.
  induction h as [|x h IH]; intros s Hr; [cbn; lia|]. change (rt_run cfg s (x :: h)) with (rt_run cfg (rt_step cfg s x) h).
  pose proof (step_rules s x) as Hx. destruct x as [r|t|p|c]; cbn [relays_from] in Hr.
  - destruct Hr as [Hr1 Hr2]. destruct Hx as (_ & _ & _ & E). rewrite <- E in Hr2. apply IH in Hr2. lia.
  - destruct Hx as [(_ & _ & E) _]. rewrite <- E in Hr. apply IH in Hr. lia.
  - destruct Hx as [(_ & _ & E) _]. rewrite <- E in Hr. apply IH in Hr. lia.
  - destruct Hx as (_ & _ & _ & E). rewrite <- E in Hr. apply IH in Hr. lia.
Qed.
Lemma stays_run h : forall s a e, relays_from (rs_relay s) h -> (forall l, SGov (GSchedules a l) ∉ h) ->
  e ∈ vesting s a -> valid_sched e -> 0 < unreleased e (rs_relay (rt_run cfg s h)) -> e ∈ vesting (rt_run cfg s h) a.
Proof.
  induction h as [|x h IH]; intros s a e Hr Hg He Hv Hu; [done|].
  assert (R : relays_from (rs_relay (rt_step cfg s x)) h /\ rs_relay s <= rs_relay (rt_step cfg s x)).
  { pose proof (step_rules s x) as Hx. destruct x as [r|t|p|c]; cbn [relays_from] in Hr.
    - destruct Hr as [Hr1 Hr2]. destruct Hx as (_ & _ & _ & ->). done.
    - destruct Hx as [(_ & _ & ->) _]. split; [done|lia].
    - destruct Hx as [(_ & _ & ->) _]. split; [done|lia].
    - destruct Hx as (_ & _ & _ & ->). split; [done|lia]. }
  destruct R as [R1 R2]. change (rt_run cfg s (x :: h)) with (rt_run cfg (rt_step cfg s x) h) in *. pose proof (relay_run h _ R1) as R3.
  apply IH; [done| | |done|done].
  - intros l Hl. apply (Hg l). by right.
  - destruct (arithmetic_lemma e (rs_relay s) Hv) as (F & _ & _ & M & _).
    assert (0 < unreleased e (rs_relay s)) as U by (specialize (M (rs_relay (rt_run cfg (rt_step cfg s x) h)) ltac:(lia)); lia).
    pose proof (step_rules s x) as Hx. destruct x as [r|t|p|c].
    + destruct Hx as (_ & _ & E & _). by rewrite E.
    + destruct Hx as [_ Hx]. eapply (proj1 (Hx a)); [done|exact F|lia].
    + destruct Hx as [_ Hx]. eapply (proj1 (Hx a)); [done|exact F|lia].
    + destruct Hx as (_ & _ & E & _). destruct (E a) as [E1|E1]; [by rewrite E1|]. exfalso. eapply Hg. rewrite <- E1. by left.
Qed.
End rules.
